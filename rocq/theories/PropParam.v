(** C119: parameters in the four encoding versions. *)
From Coq Require Import Lia ZifyBool ZifyNat Sorting.Sorted.
From Verif Require Import Py Iter Tables WspDec WspEnc Message MmsEnc SpecMms SpecWsp SpecVersion SpecAttach
  SpecSmil SpecRefuse SpecReader SpecParam WspClaims MmsClaims MessageClaims PyFacts IterFacts MmsTotal WspFacts
  MessageFacts RefuseFacts ReaderFacts PropVersion PropContent PropHeaderExact PropAttach PropReader.
Open Scope Z_scope.

(** * Numbers *)

Lemma number_out n : match encode_integer_value (PInt n) with
  | Ok l => Number_sent n l /\ machine n
  | Err e => e = EncodeError /\ ~ machine n
  end.
Proof.
  cbn [encode_integer_value]. destruct (is_int n) eqn:M; cbn [negb];
    [apply machine_iff in M|apply machine_not in M; auto].
  destruct (Z_le_dec 0 n) as [H0|H0]; [destruct (Z_le_dec n 127) as [H1|H1]|].
  - rewrite encode_short_integer_ok by lia. cbn. split; [constructor; lia|exact M].
  - rewrite (proj2 (short_integer_out n)) by lia. cbn [on_encode_error].
    destruct (octets_of n H0) as (ds & D1 & D2 & D3). unfold machine in M.
    assert (L : zlen ds <= 30).
    { apply Z.nlt_ge. intros L. destruct ds as [|d ds]; [cbn in L; lia|].
      pose proof (Forall_inv D1) as Hd. unfold is_octet in Hd. cbn in D2.
      assert (B : 256 ^ (zlen ds) <= big_endian (d :: ds)).
      { clear - D1 D2 Hd. unfold big_endian. cbn [fold_left].
        assert (G : forall l a, Forall is_octet l -> 0 <= a ->
                  a * 256 ^ zlen l <= fold_left (fun n b => n * 256 + b) l a).
        { induction l as [|b l IH]; intros a F Ha; [cbn; change (256 ^ 0) with 1; lia|].
          cbn [fold_left]. pose proof (Forall_inv F) as Hb. unfold is_octet in Hb.
          specialize (IH (a * 256 + b) (Forall_inv_tail F) ltac:(lia)).
          rewrite zlen_cons, Z.pow_add_r by (pose proof (zlen_nonneg l); lia).
          change (256 ^ 1) with 256. assert (0 < 256 ^ zlen l) by (apply Z.pow_pos_nonneg; [lia|apply zlen_nonneg]).
          nia. }
        specialize (G ds (0 * 256 + d) (Forall_inv_tail D1) ltac:(lia)).
        assert (0 < 256 ^ zlen ds) by (apply Z.pow_pos_nonneg; [lia|apply zlen_nonneg]). nia. }
      rewrite zlen_cons in L.
      assert (256 ^ 30 <= 256 ^ zlen ds) by (apply Z.pow_le_mono_r; lia).
      change (256 ^ 30) with (2 ^ 63 * 2 ^ 177) in *. lia. }
    assert (E : encode_long_integer n = Ok (zlen ds :: rev ds)).
    { rewrite <- D3. apply encode_long_integer_spec; [exact D1|exact D2|exact L|].
      rewrite D3. unfold maxint. change (2 ^ 63) with 9223372036854775808 in M. lia. }
    rewrite E.
    split; [|exact M]. apply ns_long; [lia|exact D1| |exact D3].
    destruct ds; [cbn in D3; lia|exact D2].
  - rewrite (proj2 (short_integer_out n)) by lia. cbn [on_encode_error]. unfold encode_long_integer.
    rewrite (proj2 (machine_iff n) M). cbn [negb long_enc]. replace (0 <? n) with false by lia.
    cbn. split; [apply ns_negative; unfold machine in M; lia|exact M].
Qed.

Lemma Number_sent_fun n l1 l2 : Number_sent n l1 -> Number_sent n l2 -> l1 = l2.
Proof.
  intros [A|ds A D1 D2 D3|A] [B|es B E1 E2 E3|B]; try lia; auto.
  assert (G : forall xs, Forall (fun d => 0 <= d < 256) xs -> hd 0 xs <> 0 -> big_endian xs = n ->
            long_enc (S (Z.to_nat (Z.log2 n))) n = rev xs).
  { intros xs X1 X2 X3. rewrite <- X3. apply long_enc_spec; [exact X1| |].
    - destruct xs; [exact I|exact X2].
    - rewrite X3. apply log2_fuel. lia. }
  pose proof (G ds D1 D2 D3) as G1. rewrite (G es E1 E2 E3) in G1.
  assert (ds = es) by (rewrite <- (rev_involutive ds), <- G1; apply rev_involutive). congruence.
Qed.

Lemma Number_machine n l : Number_sent n l -> machine n.
Proof. unfold machine. intros [A|ds A _ _ _|A]; lia. Qed.

(** * Decimal digits *)

Lemma digits_value_snoc s c : digits_value (s ++ [c]) = digits_value s * 10 + (c - 48).
Proof. unfold digits_value. now rewrite fold_left_app. Qed.

Lemma digits_nonneg s : Forall (fun c => 48 <= c <= 57) s -> 0 <= digits_value s.
Proof.
  induction s as [|c s IH] using rev_ind; intros H; [cbn; lia|].
  apply Forall_app in H. destruct H as [H1 H2]. apply Forall_inv in H2. rewrite digits_value_snoc.
  specialize (IH H1). lia.
Qed.

Lemma digits_zero s : Forall (fun c => 48 <= c <= 57) s -> hd 0 s <> 48 -> digits_value s = 0 -> s = [].
Proof.
  induction s as [|c s IH] using rev_ind; intros H N E; [reflexivity|exfalso].
  apply Forall_app in H. destruct H as [H1 H2]. apply Forall_inv in H2. rewrite digits_value_snoc in E.
  pose proof (digits_nonneg s H1). destruct s as [|d s].
  - cbn in E, N. lia.
  - discriminate (IH H1 N ltac:(lia)).
Qed.

Lemma digits_fun s : forall t, Forall (fun c => 48 <= c <= 57) s -> Forall (fun c => 48 <= c <= 57) t ->
  hd 0 s <> 48 -> hd 0 t <> 48 -> digits_value s = digits_value t -> s = t.
Proof.
  induction s as [|c s IH] using rev_ind; intros t Hs Ht Ns Nt E.
  - symmetry. apply digits_zero; auto.
  - destruct t as [|d t _] using rev_ind; [apply digits_zero; auto|].
    rewrite !digits_value_snoc in E. apply Forall_app in Hs, Ht. destruct Hs as [Hs Hc], Ht as [Ht Hd].
    apply Forall_inv in Hc, Hd. pose proof (digits_nonneg s Hs). pose proof (digits_nonneg t Ht).
    assert (c = d) by lia. subst d. f_equal. apply IH; auto; try lia.
    + destruct s; [cbn; lia|exact Ns].
    + destruct t; [cbn; lia|exact Nt].
Qed.

Lemma natural_fun n s t : natural_notation n s -> natural_notation n t -> s = t.
Proof.
  intros (A1 & A2 & A3 & A4 & A5) (B1 & B2 & B3 & B4 & B5). destruct (Z.eq_dec n 0) as [->|N].
  - rewrite A5, B5 by reflexivity. reflexivity.
  - apply digits_fun; auto. congruence.
Qed.

Lemma notation_text_fun n s t : notation n s -> notation n t -> s = t.
Proof.
  intros [(A & H)|(A & s' & -> & H)] [(B & K)|(B & t' & -> & K)]; try lia.
  - exact (natural_fun n s t H K).
  - f_equal. exact (natural_fun _ _ _ H K).
Qed.

(** * Values *)

Definition plain (v : pval) : Prop := (exists s, v = PStr s) \/ exists n, v = PInt n.

Lemma value_fun k v r1 r2 : plain v -> value_sent k v r1 -> value_sent k v r2 -> r1 = r2.
Proof.
  intros [[s ->]|[n ->]]; destruct k; cbn [value_sent]; try congruence.
  - intros (l1 & S1 & ->) (l2 & S2 & ->). apply C47_exact in S1, S2. congruence.
  - intros [(A & ->)|[(A & ->)|(A & A' & ->)]] [(B & ->)|[(B & ->)|(B & B' & ->)]]; try congruence;
      try contradiction; subst s; exfalso; eapply control_empty; eassumption.
  - intros [(l1 & S1 & ->)|(A & ->)] [(l2 & S2 & ->)|(B & ->)]; try reflexivity.
    + f_equal. exact (Number_sent_fun _ _ _ S1 S2).
    + destruct (B (Number_machine _ _ S1)).
    + destruct (A (Number_machine _ _ S2)).
  - intros [(A & ->)|(A & ->)] [(B & ->)|(B & ->)]; try reflexivity; contradiction.
  - unfold machine. intros [(A & ->)|[(A & A' & ->)|(A & x & X & ->)]] [(B & ->)|[(B & B' & ->)|(B & y & Y & ->)]];
      try reflexivity; try contradiction; try (exfalso; lia).
    now rewrite (notation_text_fun _ _ _ X Y).
Qed.

Lemma untyped_fun v r1 r2 : plain v -> untyped_sent v r1 -> untyped_sent v r2 -> r1 = r2.
Proof.
  intros [[s ->]|[n ->]]; cbn [untyped_sent]; [congruence|].
  intros [(l1 & S1 & ->)|(A & ->)] [(l2 & S2 & ->)|(B & ->)]; try reflexivity.
  - f_equal. exact (Number_sent_fun _ _ _ S1 S2).
  - destruct (B (Number_machine _ _ S1)).
  - destruct (A (Number_machine _ _ S2)).
Qed.

Definition kind_of_type (t : vtype) : kind :=
  match t with
  | TTextString | TTextValue => Text
  | TInteger => Number_kind
  | TShort => Octet
  | TVersion => Version
  | TConstrained => Media
  | TNo => Flag
  | TQ | TCharset | TFieldName | TDelta | TDate => Unwritable
  end.

Lemma value_out t v : plain v -> value_sent (kind_of_type t) v (encode_by_type t v).
Proof.
  intros [[s ->]|[n ->]]; destruct t; cbn [kind_of_type value_sent encode_by_type]; try reflexivity.
  - exists (encode_version_value s). split; [apply version_sent|reflexivity].
  - cbn [encode_constrained_encoding]. destruct (control_out s) as [(A & ->)|[(A & ->)|(A & B & ->)]]; auto.
  - pose proof (number_out n) as H. destruct (encode_integer_value (PInt n)) as [l|e].
    + left. exists l. split; [apply H|reflexivity].
    + right. destruct H as [-> H]. auto.
  - cbn [encode_short_integer_p]. destruct (Z_le_dec 0 n); [destruct (Z_le_dec n 127)|].
    + left. rewrite encode_short_integer_ok by lia. split; [lia|reflexivity].
    + right. rewrite (proj2 (short_integer_out n)) by lia. split; [lia|reflexivity].
    + right. rewrite (proj2 (short_integer_out n)) by lia. split; [lia|reflexivity].
  - cbn [encode_constrained_encoding]. destruct (is_int n) eqn:M.
    + apply machine_iff in M. destruct (Z_le_dec 0 n); [destruct (Z_le_dec n 127)|].
      * left. rewrite encode_short_integer_ok by lia. split; [lia|reflexivity].
      * right. left. rewrite (proj2 (short_integer_out n)) by lia. split; [exact M|]. split; [lia|reflexivity].
      * right. left. rewrite (proj2 (short_integer_out n)) by lia. split; [exact M|]. split; [lia|reflexivity].
    + apply machine_not in M. right. right. split; [exact M|].
      exists ((if n <? 0 then [45] else []) ++ py_dec (Z.abs n)). split.
      * destruct (n <? 0) eqn:C.
        -- right. split; [lia|]. eexists. split; [reflexivity|]. replace (Z.abs n) with (- n) by lia.
           apply py_dec_notation. lia.
        -- left. split; [lia|]. cbn [app]. replace (Z.abs n) with n by lia. apply py_dec_notation. lia.
      * destruct (control_out ((if n <? 0 then [45] else []) ++ py_dec (Z.abs n)))
          as [(A & _)|[(A & _)|(A & B & ->)]]; [| |reflexivity].
        -- exfalso. destruct (py_dec_notation (Z.abs n)) as (X & _); [lia|].
           apply app_eq_nil in A. destruct A as [_ A]. contradiction.
        -- exfalso. destruct A as (c & r & E & H).
           destruct (py_dec_notation (Z.abs n)) as (X & F & _); [lia|].
           destruct (n <? 0); cbn [app] in E.
           ++ injection E as <- _. lia.
           ++ destruct (py_dec (Z.abs n)); [contradiction|]. injection E as -> _.
              apply Forall_inv in F. lia.
Qed.

Lemma untyped_out v : plain v ->
  untyped_sent v (on_encode_error (encode_integer_value v) (encode_text_string_p v)).
Proof.
  intros [[s ->]|[n ->]]; cbn [untyped_sent]; [reflexivity|].
  pose proof (number_out n) as H. destruct (encode_integer_value (PInt n)) as [l|e].
  - left. exists l. split; [apply H|reflexivity].
  - right. destruct H as [-> H]. auto.
Qed.

(** * The tables *)

Lemma leqb_neq a b : a <> b -> leqb a b = false.
Proof. intros H. destruct (leqb a b) eqn:E; [apply leqb_eq in E; contradiction|reflexivity]. Qed.

Lemma find_newest {A} (f : Z * A -> bool) (l : list (Z * A)) :
  StronglySorted (fun x y => fst y < fst x) l ->
  match find f l with
  | Some x => In x l /\ f x = true /\ forall y, In y l -> f y = true -> fst y <= fst x
  | None => forall y, In y l -> f y = false
  end.
Proof.
  induction 1 as [|x l S IH F]; [intros y []|]. cbn [find]. destruct (f x) eqn:E.
  - split; [now left|]. split; [exact E|]. intros y [<-|Hy] _; [lia|].
    rewrite Forall_forall in F. specialize (F y Hy). lia.
  - destruct (find f l) as [z|].
    + destruct IH as (A1 & A2 & A3). split; [now right|]. split; [exact A2|].
      intros y [<-|Hy] Y; [congruence|auto].
    + intros y [<-|Hy]; auto.
Qed.

Fixpoint falling (l : list Z) : bool :=
  match l with
  | x :: r => forallb (fun y => y <? x) r && falling r
  | [] => true
  end.
Lemma falling_sorted {A} (l : list (Z * A)) : falling (map fst l) = true ->
  StronglySorted (fun x y => fst y < fst x) l.
Proof.
  induction l as [|x l IH]; cbn [map falling]; intros H; [constructor|].
  apply andb_prop in H. destruct H as [H1 H2]. constructor; [auto|].
  rewrite forallb_forall in H1. rewrite Forall_forall. intros y Hy.
  specialize (H1 (fst y) (in_map fst _ _ Hy)). lia.
Qed.

Definition table_of (k : Z) : list (Z * (list Z * vtype)) :=
  match get_well_known_parameters (version_1 k) with Ok d => d | Err _ => [] end.

Lemma table_ok k : 1 <= k <= 4 -> get_well_known_parameters (version_1 k) = Ok (table_of k).
Proof. intros H. destruct (four k H) as [->|[->|[->| ->]]]; vm_compute; reflexivity. Qed.

Lemma table_known k : 1 <= k <= 4 -> forall n name,
  in_version k n name <-> exists t, d_get Z.eqb n (table_of k) = Some (name, t).
Proof.
  intros H n name. destruct (C64_parameters_exact k H) as (d & E & G).
  change (wsp_version k) with (version_1 k) in E. rewrite (table_ok k H) in E.
  assert (d = table_of k) by congruence. subst d. symmetry. apply G.
Qed.

Lemma table_facts k : 1 <= k <= 4 ->
  falling (map fst (rev (table_of k))) = true /\
  forallb (fun e => (0 <=? fst e) && (fst e <=? 127)) (table_of k) = true /\
  Forall (fun e => kind_of (fst e) = kind_of_type (snd (snd e))) (table_of k) /\
  NoDup (map fst (table_of k)).
Proof.
  intros H. destruct (four k H) as [->|[->|[->| ->]]]; clear H; (split; [vm_compute; reflexivity|split; [vm_compute; reflexivity|split]]);
    try (apply (nodupb_NoDup Z.eqb); [apply Zeqb_spec|vm_compute; reflexivity]);
    rewrite Forall_forall; intros e He; apply in_rev in He;
    match type of He with In _ ?l => let l' := eval vm_compute in l in change l with l' in He end;
    repeat (destruct He as [<-|He]; [reflexivity|]); destruct He.
Qed.

Lemma newest k name : 1 <= k <= 4 ->
  match find_parameter name (table_of k) with
  | Some (n, (_, t)) => number_for k name n /\ 0 <= n <= 127 /\ kind_of n = kind_of_type t
  | None => forall n, ~ in_version k n name
  end.
Proof.
  intros H. destruct (table_facts k H) as (S & R & K & N).
  pose proof (find_newest (fun p => leqb (fst (snd p)) name) _ (falling_sorted _ S)) as F.
  assert (D : forall n s t, d_get Z.eqb n (table_of k) = Some (s, t) <-> In (n, (s, t)) (rev (table_of k))).
  { intros n s t. rewrite <- in_rev. apply d_get_In; [apply Zeqb_spec|exact N]. }
  unfold find_parameter. destruct (find _ (rev (table_of k))) as [[n [s t]]|].
  - destruct F as (F1 & F2 & F3). cbn [fst snd] in F2. apply leqb_eq in F2. subst s. split; [split|split].
    + apply (table_known k H). exists t. now apply D.
    + intros m M. apply (table_known k H) in M. destruct M as (t' & M). apply D in M.
      exact (F3 _ M (leqb_refl name)).
    + apply in_rev in F1. rewrite forallb_forall in R. specialize (R _ F1). cbn [fst] in R. lia.
    + apply in_rev in F1. rewrite Forall_forall in K. exact (K _ F1).
  - intros n M. apply (table_known k H) in M. destruct M as (t & M). apply D in M.
    specialize (F _ M). cbn [fst snd] in F. now rewrite leqb_refl in F.
Qed.

Lemma version_cases version : (exists k, 1 <= k <= 4 /\ version = version_1 k) \/
  (forall k, 1 <= k <= 4 -> version <> version_1 k).
Proof.
  destruct (list_eq_dec Z.eq_dec version (version_1 1)); [left; exists 1; split; [lia|assumption]|].
  destruct (list_eq_dec Z.eq_dec version (version_1 2)); [left; exists 2; split; [lia|assumption]|].
  destruct (list_eq_dec Z.eq_dec version (version_1 3)); [left; exists 3; split; [lia|assumption]|].
  destruct (list_eq_dec Z.eq_dec version (version_1 4)); [left; exists 4; split; [lia|assumption]|].
  right. intros k H. destruct (four k H) as [->|[->|[->| ->]]]; assumption.
Qed.

Lemma version_1_inj j k : version_1 j = version_1 k -> j = k.
Proof. unfold version_1. intros H. apply app_inv_head in H. assert (48 + j = 48 + k) by congruence. lia. Qed.

Lemma version_bad version : (forall k, 1 <= k <= 4 -> version <> version_1 k) ->
  version_number version = Err ValueError.
Proof.
  intros H. unfold version_number.
  replace (leqb version (str "1.1")) with false by (symmetry; apply leqb_neq, (H 1); lia).
  replace (leqb version (str "1.2")) with false by (symmetry; apply leqb_neq, (H 2); lia).
  replace (leqb version (str "1.3")) with false by (symmetry; apply leqb_neq, (H 3); lia).
  replace (leqb version (str "1.4")) with false by (symmetry; apply leqb_neq, (H 4); lia).
  reflexivity.
Qed.

Lemma parameter_does version name v : plain v ->
  parameter_sent version name v (encode_parameter_in version name v).
Proof.
  intros V. unfold encode_parameter_in. destruct (version_cases version) as [(k & H & ->)|H].
  2:{ unfold get_well_known_parameters. rewrite (version_bad _ H). now constructor. }
  rewrite (table_ok k H). cbn [bind]. pose proof (newest k name H) as N.
  destruct (find_parameter name (table_of k)) as [[n [s t]]|].
  - destruct N as (A & B & C). rewrite encode_short_integer_ok by lia. cbn [bind].
    pose proof (value_out t v V) as W. rewrite <- C in W. destruct (encode_by_type t v) as [l|e]; cbn [bind app].
    + exact (ps_number _ _ _ k n l H eq_refl A W).
    + exact (ps_number_fails _ _ _ k n e H eq_refl A W).
  - unfold encode_token_text. destruct (existsb is_separator name) eqn:S; cbn [bind].
    + apply (ps_separated _ _ _ k H eq_refl N). now apply separated_iff.
    + apply separated_not in S. pose proof (untyped_out v V) as W.
      destruct (on_encode_error _ _) as [l|e]; cbn [bind].
      * unfold encode_text_string. rewrite <- app_assoc. exact (ps_name _ _ _ k l H eq_refl N S W).
      * exact (ps_name_fails _ _ _ k e H eq_refl N S W).
Qed.

Lemma assigned_fun k name n m : number_for k name n -> number_for k name m -> n = m.
Proof. intros (A & B) (C & D). specialize (B _ C). specialize (D _ A). lia. Qed.

Lemma parameter_sent_fun version name v r1 r2 : plain v ->
  parameter_sent version name v r1 -> parameter_sent version name v r2 -> r1 = r2.
Proof.
  intros V H1 H2.
  destruct H1 as [A|k n l K A N W|k n e K A N W|k K A N S|k l K A N S W|k e K A N S W];
  destruct H2 as [B|j m l' J B M X|j m e' J B M X|j J B M T|j l' J B M T X|j e' J B M T X]; try reflexivity;
  try (exfalso; now apply (A j J)); try (exfalso; now apply (B k K));
  (assert (j = k) by (apply version_1_inj; congruence)); subst j;
  try contradiction;
  try (exfalso; now apply (N _ (proj1 M))); try (exfalso; now apply (M _ (proj1 N)));
  try (assert (m = n) by (eapply assigned_fun; eassumption); subst m);
  first [pose proof (value_fun _ _ _ _ V W X)|pose proof (untyped_fun _ _ _ V W X)]; congruence.
Qed.

(** C119: what [encode_parameter] does for a text or an integer, in every version. *)
Theorem C119_encode : forall version name v r, (exists s, v = PStr s) \/ (exists n, v = PInt n) ->
  encode_parameter_in version name v = r <-> parameter_sent version name v r.
Proof.
  intros version name v r V. split.
  - intros <-. apply parameter_does, V.
  - apply (parameter_sent_fun version name v _ _ V), parameter_does, V.
Qed.
Print Assumptions C119_encode.

(** The names of the types of values, as the comments of [vtype] give them. *)
Definition vtype_name (t : vtype) : list Z :=
  match t with
  | TQ => str "q_value" | TCharset => str "well_known_charset" | TVersion => str "version_value"
  | TInteger => str "integer_value" | TTextString => str "text_string" | TFieldName => str "Field-name"
  | TShort => str "short_integer" | TConstrained => str "constrained_encoding"
  | TDelta => str "delta_seconds_value" | TNo => str "no_value" | TTextValue => str "text_value"
  | TDate => str "date_value"
  end.

Lemma decode_run version it n it' : decode_integer_value it = (Ok n, it') ->
  decode_well_known_parameter_in version it =
  (d <- get_well_known_parameters version ;;
   match d_get Z.eqb n d with Some p => Ok p | None => Err DecodeError end, it').
Proof.
  intros E. unfold decode_well_known_parameter_in, st_bind. rewrite E.
  destruct (get_well_known_parameters version) as [d|e]; [|reflexivity]. cbn [st_lift bind].
  unfold st_lift, st_ret, st_err. destruct (d_get Z.eqb n d); reflexivity.
Qed.

Lemma table_sub version d : get_well_known_parameters version = Ok d -> incl d well_known_parameters.
Proof.
  unfold get_well_known_parameters. destruct (version_number version) as [q|e]; cbn [bind]; [|discriminate].
  generalize well_known_parameters. intros ps H e He. injection H as H. subst d.
  destruct (q <=? 3), (q <=? 2), (q =? 1); unfold del_range in He;
    repeat (apply filter_In in He; destruct He as [He _]); exact He.
Qed.

Lemma types_all : forallb (fun e : Z * (list Z * vtype) =>
  existsb (fun f => (fst f =? fst e) && leqb (snd f) (vtype_name (snd (snd e)))) type_names)
  well_known_parameters = true.
Proof. vm_compute. reflexivity. Qed.

Lemma table_types k e : 1 <= k <= 4 -> In e (table_of k) ->
  In (fst e, vtype_name (snd (snd e))) type_names.
Proof.
  intros H He. apply (table_sub _ _ (table_ok k H)) in He.
  pose proof types_all as F. rewrite forallb_forall in F. specialize (F e He).
  apply existsb_exists in F. destruct F as ([a b] & F1 & F2). cbn [fst snd] in F2.
  apply andb_prop in F2. destruct F2 as [F2 F3]. apply leqb_eq in F3. apply Z.eqb_eq in F2.
  subst. exact F1.
Qed.

(** C119: what [decode_well_known_parameter] returns in every version: after the number
    the reader of C117 takes, its name and type if the version has it. *)
Theorem C119_decode : forall version it, all_octets (remaining it) -> it_pos it = 0%nat ->
  exists it', it_pos it' = 0%nat /\
  match an_integer (remaining it) with
  | Fails e rest =>
      remaining it' = rest /\ decode_well_known_parameter_in version it = (Err e, it')
  | Reads n rest =>
      remaining it' = rest /\
      ((forall k, 1 <= k <= 4 -> version <> version_1 k) ->
       decode_well_known_parameter_in version it = (Err ValueError, it')) /\
      (forall k, 1 <= k <= 4 -> version = version_1 k ->
       (forall name, in_version k n name -> exists t, In (n, vtype_name t) type_names /\
          decode_well_known_parameter_in version it = (Ok (name, t), it')) /\
       ((forall name, ~ in_version k n name) ->
        decode_well_known_parameter_in version it = (Err DecodeError, it')))
  end.
Proof.
  intros version it Hl Hp. destruct (sim_follows _ _ _ integer_sim it Hl Hp) as (it' & P & Hi).
  exists it'. split; [exact P|].
  destruct (an_integer (remaining it)) as [n rest|e rest]; destruct Hi as [E R].
  2:{ split; [exact R|]. unfold decode_well_known_parameter_in, st_bind. rewrite E. reflexivity. }
  split; [exact R|]. rewrite (decode_run version it n it' E). split.
  - intros H. unfold get_well_known_parameters. rewrite (version_bad _ H). reflexivity.
  - intros k H ->. rewrite (table_ok k H). cbn [bind]. split.
    + intros name N. apply (table_known k H) in N. destruct N as (t & N). rewrite N.
      exists t. split; [|reflexivity].
      destruct (table_facts k H) as (_ & _ & _ & ND).
      apply d_get_In in N; [|apply Zeqb_spec|exact ND]. exact (table_types k _ H N).
    + intros N. destruct (d_get Z.eqb n (table_of k)) as [[name t]|] eqn:D; [|reflexivity].
      exfalso. apply (N name). apply (table_known k H). exists t. exact D.
Qed.
Print Assumptions C119_decode.

(** * Cases *)

(** Type: number 3 in version 1.1, number 9 from 1.2 on. *)
Example C119_type :
  number_for 1 (str "Type") 3 /\ kind_of 3 = Number_kind /\
  encode_parameter_in (str "1.1") (str "Type") (PInt 1000) = Ok [131; 2; 232; 3] /\
  encode_parameter_in (str "1.4") (str "Type") (PInt 1000) = Err EncodeError /\
  encode_parameter_in (str "1.4") (str "Type") (PStr (str "a/b")) = Ok [137; 97; 47; 98; 0].
Proof.
  split; [|vm_compute; repeat split].
  split; [exists 1; split; [lia|]; cbn; auto|].
  intros m (j & H & I). assert (j = 1) by lia. subst j. cbn in I.
  repeat (destruct I as [I|I]; [apply pair_equal_spec in I; destruct I as [<- I]; try lia; discriminate|]).
  destruct I.
Qed.

Example C119_cases :
  encode_parameter_in (str "1.3") (str "Secure") (PStr []) = Ok [144; 0] /\
  encode_parameter_in (str "1.2") (str "Secure") (PStr []) = Ok (str "Secure" ++ [0; 0]) /\
  encode_parameter_in (str "1.3") (str "Max-Age") (PInt 1) = Err AttributeError /\
  encode_parameter_in (str "1.4") (str "Name") (PStr [97]) = Ok [151; 97; 0] /\
  encode_parameter_in (str "1.5") (str "Name") (PStr [97]) = Err ValueError /\
  encode_parameter_in (str "1.1") (str "a b") (PInt 1) = Err EncodeError.
Proof. vm_compute. repeat split. Qed.
