(** The decoders on iterators do what the readers on lists do. *)
From Coq Require Import Lia ZifyBool ZifyNat.
From Verif Require Import Py Iter Tables WspDec Message MmsDec SpecWsp SpecMms WspClaims
  PyFacts IterFacts MmsTotal WspFacts GrammarFacts SpecReader.
Open Scope Z_scope.

Definition out {A} (r : res A) (l : list Z) : outcome A :=
  match r with Ok a => Reads a l | Err e => Fails e l end.

(** From any look-ahead; and from none, to none. *)
Definition sim_any {A} (m : ST piter A) (x : reader A) : Prop :=
  forall l p, all_octets l -> wp m l p (fun r l' p' => out r l' = x l /\ p' = 0%nat /\ all_octets l').
Definition sim {A} (m : ST piter A) (x : reader A) : Prop :=
  forall l, all_octets l -> wp m l 0 (fun r l' p' => out r l' = x l /\ p' = 0%nat /\ all_octets l').

Lemma sim_of_any : forall A (m : ST piter A) x, sim_any m x -> sim m x.
Proof. intros A m x H l Hl. apply H. exact Hl. Qed.

Lemma out_inj : forall A (r : res A) l o, out r l = o ->
  match o with Reads a l' => r = Ok a /\ l = l' | Fails e l' => r = Err e /\ l = l' end.
Proof. intros A r l o <-. destruct r; cbn; auto. Qed.

Lemma sim_ext : forall A (m : ST piter A) x y, sim m x ->
  (forall l, all_octets l -> x l = y l) -> sim m y.
Proof.
  intros A m x y H E l Hl. eapply wp_mono; [apply H; exact Hl|].
  intros r l' p' (H1 & H2). rewrite <- (E l Hl). auto.
Qed.

Lemma sim_gives : forall A (a : A), sim (st_ret a) (gives a).
Proof. intros A a l Hl. wsteps. auto. Qed.

Lemma sim_err : forall A e, sim (@st_err _ A e) (fun l => Fails e l).
Proof. intros A e l Hl. wsteps. auto. Qed.

Lemma sim_bind : forall A B (m : ST piter A) (k : A -> ST piter B) x y,
  sim m x -> (forall a, sim (k a) (y a)) -> sim (st_bind m k) (and_then x y).
Proof.
  intros A B m k x y Hm Hk l Hl. apply wp_bind. eapply wp_mono; [apply Hm; exact Hl|].
  intros r l1 p1 (E & -> & Hl1). unfold and_then. destruct r as [a|e]; cbn in E; rewrite <- E.
  - apply Hk. exact Hl1.
  - auto.
Qed.

Lemma sim_shown : forall A B (m : ST piter A) (f : A -> B) x,
  sim m x -> sim (a <~ m ;; st_ret (f a)) (shown f x).
Proof. intros A B m f x H. apply sim_bind; [exact H|]. intros a. apply sim_gives. Qed.

Lemma sim_catch : forall A (m h : ST piter A) x y,
  sim m x -> sim h y -> sim (st_catch m DecodeError h) (or_else x y).
Proof.
  intros A m h x y Hm Hh l Hl. apply wp_catch. eapply wp_mono; [apply Hm; exact Hl|].
  intros r l1 p1 (E & -> & Hl1). unfold or_else. destruct r as [a|e]; cbn in E; rewrite <- E.
  - auto.
  - destruct e; cbn [exn_eqb]; auto.
Qed.

(** * Octets and numbers *)

Lemma next_sim : sim_any next one_octet.
Proof.
  intros l p Hl. wsteps. destruct l as [|b l]; cbn; auto.
  inversion Hl; subst. auto.
Qed.

Lemma octets_cons : forall b l, all_octets (b :: l) -> 0 <= b < 256 /\ all_octets l.
Proof. intros b l H. inversion H; subst. auto. Qed.

Lemma octets_skipn : forall n l, all_octets l -> all_octets (skipn n l).
Proof.
  intros n l H. unfold all_octets in *. rewrite <- (firstn_skipn n l) in H.
  apply Forall_app in H. tauto.
Qed.
Lemma octets_firstn : forall n l, all_octets l -> all_octets (firstn n l).
Proof.
  intros n l H. unfold all_octets in *. rewrite <- (firstn_skipn n l) in H.
  apply Forall_app in H. tauto.
Qed.

Lemma div_128 : forall b, 0 <= b < 256 -> (b / 128 =? 1) = (128 <=? b).
Proof.
  intros b H. destruct (Z.leb_spec 128 b).
  - apply Z.eqb_eq. symmetry. apply Z.div_unique with (b - 128); lia.
  - apply Z.eqb_neq. rewrite Z.div_small; lia.
Qed.

Lemma mod_128 : forall b, 128 <= b < 256 -> b mod 128 = b - 128.
Proof. intros b H. symmetry. apply Z.mod_unique with 1; lia. Qed.

Lemma uint_var_loop_sim : forall fuel l acc b, (length l < fuel)%nat -> is_octet b -> all_octets l ->
  wp (uint_var_loop fuel acc b) l 0 (fun r l' p' =>
    out r l' = match up_to (fun c => c <? 128) (b :: l) with
               | Some (ds, d, r') =>
                   Reads (fold_left (fun n d => n * 128 + d) (map (fun c => c - 128) ds ++ [d]) acc) r'
               | None => ended
               end /\ p' = 0%nat /\ all_octets l').
Proof.
  induction fuel as [|fuel IH]; intros l acc b Hf Hb Hl; [lia|]. unfold is_octet in Hb.
  cbn [uint_var_loop up_to]. rewrite shiftr_7, land_127, lor_shift7 by (apply Z.mod_pos_bound; lia).
  rewrite div_128 by exact Hb. destruct (Z.ltb_spec b 128); destruct (Z.leb_spec 128 b); try lia.
  - wsteps. cbn. rewrite Z.mod_small by lia. auto.
  - wsteps. destruct l as [|c l]; [cbn; auto|]. apply octets_cons in Hl as [Hc Hl].
    eapply wp_mono; [apply IH; [cbn in Hf; lia|exact Hc|exact Hl]|].
    intros r l' p' (E & Hp & Ho). rewrite E. split; [|auto].
    destruct (up_to _ (c :: l)) as [[[ds d] r']|]; [|reflexivity].
    cbn [map app fold_left]. rewrite (mod_128 b) by lia. reflexivity.
Qed.

Lemma uint_var_sim : sim_any decode_uint_var a_uintvar.
Proof.
  intros l p Hl. unfold decode_uint_var, a_uintvar. wsteps. destruct l as [|b l]; [cbn; auto|].
  apply octets_cons in Hl as [Hb Hl]. wsteps. apply uint_var_loop_sim; [lia|exact Hb|exact Hl].
Qed.

Lemma read_loop_sim : forall fuel n l, (length l < fuel)%nat -> 0 <= n -> all_octets l ->
  wp (read_loop fuel n) l 0 (fun r l' p' =>
    out r l' = (if n <=? n_octets l
                then Reads (firstn (Z.to_nat n) l) (skipn (Z.to_nat n) l) else ended) /\
    p' = 0%nat /\ all_octets l').
Proof.
  induction fuel as [|fuel IH]; intros n l Hf Hn Hl; [lia|]. cbn [read_loop].
  destruct (Z.ltb_spec 0 n).
  - wsteps. destruct l as [|b l].
    + unfold n_octets. cbn [length Z.of_nat]. destruct (Z.leb_spec n 0); [lia|]. cbn. auto.
    + apply octets_cons in Hl as [_ Hl]. wsteps.
      eapply wp_mono; [apply IH; [cbn in Hf; lia|lia|exact Hl]|].
      intros r l' p' (E & -> & Ho). replace (Z.to_nat n) with (S (Z.to_nat (n - 1))) by lia.
      replace (n <=? n_octets (b :: l)) with (n - 1 <=? n_octets l)
        by (unfold n_octets; cbn [length]; lia).
      destruct (n - 1 <=? n_octets l); apply out_inj in E as [-> ->]; wsteps; cbn; auto.
  - assert (n = 0) as -> by lia. wsteps. unfold n_octets.
    destruct (Z.leb_spec 0 (Z.of_nat (length l))); [|lia]. cbn. auto.
Qed.

Lemma read_n_sim : forall n, 0 <= n -> sim (read_n n) (next_octets n).
Proof.
  intros n Hn l Hl. unfold read_n, next_octets, xrange_check, maxint.
  replace (9223372036854775807 <? n) with (2 ^ 63 <=? n) by (change (2 ^ 63) with 9223372036854775808; lia).
  destruct (2 ^ 63 <=? n); wsteps; [cbn; auto|]. apply read_loop_sim; [lia|exact Hn|exact Hl].
Qed.

Lemma land_127_octet : forall b, 128 <= b < 256 -> Z.land b 127 = b - 128.
Proof. intros b H. rewrite land_127. apply mod_128. exact H. Qed.

Lemma short_integer_sim : sim decode_short_integer a_short_integer.
Proof.
  intros l Hl. unfold decode_short_integer, a_short_integer. wsteps.
  destruct l as [|b l]; cbn [nth_error]; [cbn; auto|]. pose proof Hl as Hl'. apply octets_cons in Hl as [Hb Hl].
  rewrite land_128 by exact Hb. destruct (Z.ltb_spec b 128); destruct (Z.leb_spec 128 b); try lia; wsteps.
  - cbn. auto.
  - rewrite land_127_octet by lia. cbn. auto.
Qed.

Lemma short_length_sim : sim decode_short_length (fun l => match l with
  | [] => ended | b :: r => if b <=? 30 then Reads b r else refused l end).
Proof.
  intros l Hl. unfold decode_short_length. wsteps.
  destruct l as [|b l]; cbn [nth_error]; [cbn; auto|]. pose proof Hl as Hl'. apply octets_cons in Hl as [Hb Hl].
  destruct (Z.ltb_spec 30 b); destruct (Z.leb_spec b 30); try lia; wsteps; cbn; auto.
Qed.

Lemma long_integer_sim : sim decode_long_integer a_long_integer.
Proof.
  intros l Hl. unfold decode_long_integer, a_long_integer. apply wp_bind.
  eapply wp_mono; [apply short_length_sim; exact Hl|]. cbv beta. intros r l1 p1 (E & -> & Hl1).
  destruct l as [|b l]; [apply out_inj in E as [-> ->]; auto|].
  pose proof Hl as Hl'. apply octets_cons in Hl as [Hb Hl].
  destruct (b <=? 30); apply out_inj in E as [-> ->]; [|auto].
  unfold shown, and_then. apply wp_bind.
  eapply wp_mono; [apply read_n_sim; [lia|exact Hl]|]. cbv beta. intros r l1 p1 (E & -> & Hl2).
  unfold next_octets in *. destruct (2 ^ 63 <=? b); [apply out_inj in E as [-> ->]; auto|].
  destruct (b <=? n_octets l); apply out_inj in E as [-> ->]; [|auto]. wsteps.
  rewrite long_of_big_endian by (apply octets_firstn; exact Hl). cbn. auto.
Qed.

Lemma integer_sim : sim decode_integer_value an_integer.
Proof.
  apply sim_ext with (or_else a_short_integer a_long_integer).
  - apply sim_catch; [apply short_integer_sim|apply long_integer_sim].
  - intros l Hl. unfold or_else, a_short_integer, an_integer. destruct l as [|b l]; [reflexivity|].
    destruct (128 <=? b); reflexivity.
Qed.

Lemma value_length_sim : sim decode_value_length a_value_length.
Proof.
  intros l Hl. unfold decode_value_length, a_value_length. apply wp_catch.
  eapply wp_mono; [apply short_length_sim; exact Hl|]. cbv beta. intros r l1 p1 (E & -> & Hl1).
  destruct l as [|b l]; [apply out_inj in E as [-> ->]; cbn; auto|].
  pose proof Hl as Hl'. apply octets_cons in Hl as [Hb Hl].
  destruct (b <=? 30); apply out_inj in E as [-> ->]; [cbn; auto|]. wsteps.
  destruct (b =? 31); wsteps; [|cbn; auto]. apply uint_var_sim. exact Hl.
Qed.

(** * Text *)

Lemma text_loop_sim : forall fuel l b, (length l < fuel)%nat -> all_octets l ->
  wp (text_loop fuel b) l 0 (fun r l' p' => out r l' = to_zero (b :: l) /\ p' = 0%nat /\ all_octets l').
Proof.
  induction fuel as [|fuel IH]; intros l b Hf Hl; [lia|]. cbn [text_loop].
  unfold to_zero. cbn [up_to]. rewrite Z.eqb_sym. destruct (0 =? b).
  - wsteps. cbn. auto.
  - wsteps. destruct l as [|c l]; [cbn; auto|]. apply octets_cons in Hl as [_ Hl]. wsteps.
    eapply wp_mono; [apply IH; [cbn in Hf; lia|exact Hl]|].
    intros r l' p' (E & -> & Ho). unfold to_zero in E.
    destruct (up_to _ (c :: l)) as [[[s d] r']|]; apply out_inj in E as [-> ->]; wsteps; cbn; auto.
Qed.

Lemma text_loop_fuelled : forall l b, all_octets l ->
  wp (fuelled (fun f => text_loop f b)) l 0
     (fun r l' p' => out r l' = to_zero (b :: l) /\ p' = 0%nat /\ all_octets l').
Proof. intros l b Hl. wsteps. apply text_loop_sim; [lia|exact Hl]. Qed.

Lemma a_text_cons : forall b l, a_text (b :: l) = if b =? 127 then to_zero l else to_zero (b :: l).
Proof.
  intros b l. destruct (Z.eqb_spec b 127) as [->|N]; [reflexivity|].
  unfold a_text. destruct b as [|b|b]; try reflexivity.
  do 7 (destruct b as [b|b|]; try reflexivity); contradiction N; reflexivity.
Qed.

Lemma text_sim : sim decode_text_string a_text.
Proof.
  intros l Hl. unfold decode_text_string. wsteps. destruct l as [|b l]; [cbn; auto|].
  apply octets_cons in Hl as [Hb Hl]. rewrite a_text_cons. destruct (b =? 127).
  - wsteps. destruct l as [|c l]; [cbn; auto|]. apply octets_cons in Hl as [_ Hl].
    apply text_loop_fuelled. exact Hl.
  - wsteps. apply text_loop_sim; [lia|exact Hl].
Qed.

Lemma in_token_char : forall b, token_char b = in_token b.
Proof.
  intros b. unfold token_char, in_token, is_separator. change separators with separator_chars.
  rewrite Bool.negb_orb. f_equal. lia.
Qed.

Lemma token_loop_sim : forall fuel l b, (length l < fuel)%nat -> all_octets l ->
  wp (token_loop fuel b) l 0 (fun r l' p' =>
    out r l' = match up_to (fun c => negb (in_token c)) (b :: l) with
               | Some (s, _, r) => Reads s r
               | None => ended
               end /\ p' = 0%nat /\ all_octets l').
Proof.
  induction fuel as [|fuel IH]; intros l b Hf Hl; [lia|]. cbn [token_loop].
  cbn [up_to]. rewrite in_token_char. destruct (in_token b); cbn [negb].
  - wsteps. destruct l as [|c l]; [cbn; auto|]. apply octets_cons in Hl as [_ Hl]. wsteps.
    eapply wp_mono; [apply IH; [cbn in Hf; lia|exact Hl]|].
    intros r l' p' (E & -> & Ho).
    destruct (up_to _ (c :: l)) as [[[s d] r']|]; apply out_inj in E as [-> ->]; wsteps; cbn; auto.
  - wsteps. cbn. auto.
Qed.

Lemma token_sim : sim decode_token_text a_token.
Proof.
  intros l Hl. unfold decode_token_text, a_token. wsteps.
  destruct l as [|b l]; cbn [nth_error]; [cbn; auto|]. pose proof Hl as Hl'. apply octets_cons in Hl as [_ Hl].
  rewrite in_token_char. destruct (in_token b); cbn [negb]; wsteps.
  - apply token_loop_sim; [lia|exact Hl].
  - cbn. auto.
Qed.

Lemma media_by_name_sim : sim decode_extension_media media_by_name.
Proof.
  intros l Hl. unfold decode_extension_media, media_by_name. wsteps.
  destruct l as [|b l]; cbn [nth_error]; [cbn; auto|]. pose proof Hl as Hl'. apply octets_cons in Hl as [_ Hl].
  replace ((32 <=? b) && negb (b =? 127)) with (negb ((b <? 32) || (b =? 127))) by lia.
  destruct ((b <? 32) || (b =? 127)); cbn [negb]; wsteps.
  - cbn. auto.
  - apply text_loop_sim; [lia|exact Hl].
Qed.

Lemma quoted_sim : sim decode_quoted_string a_quoted.
Proof.
  intros l Hl. unfold decode_quoted_string, a_quoted. wsteps.
  destruct l as [|b l]; cbn [nth_error]; [cbn; auto|]. pose proof Hl as Hl'. apply octets_cons in Hl as [_ Hl].
  destruct (b =? 34); cbn [negb]; wsteps.
  - apply text_sim. exact Hl.
  - cbn. auto.
Qed.

Lemma text_value_sim : sim decode_text_value a_text_value.
Proof.
  apply sim_ext with (or_else a_token (or_else a_quoted (gives []))).
  - apply sim_catch; [apply token_sim|apply sim_catch; [apply quoted_sim|apply sim_gives]].
  - intros l Hl. unfold or_else, a_text_value, a_token. destruct l as [|b l]; [reflexivity|].
    destruct (in_token b) eqn:E.
    + destruct (up_to _ (b :: l)) as [[[s d] r']|]; reflexivity.
    + unfold a_quoted, refused. destruct (Z.eqb_spec b 34) as [->|]; [discriminate E|reflexivity].
Qed.

(** * Versions, dates, character sets *)

Lemma version_octet : forall b, 128 <= b < 256 ->
  py_dec (Z.shiftr (Z.land (b - 128) 112) 4) ++ str "." ++ py_dec (Z.land (b - 128) 15) =
  small_dec ((b - 128) / 16) ++ str "." ++ small_dec (b mod 16).
Proof.
  intros b Hb. pose proof (octet_sweep (fun b => (b <? 128) ||
    leqb (py_dec (Z.shiftr (Z.land (b - 128) 112) 4) ++ str "." ++ py_dec (Z.land (b - 128) 15))
         (small_dec ((b - 128) / 16) ++ str "." ++ small_dec (b mod 16)))
    ltac:(vm_compute; reflexivity) b ltac:(unfold is_octet; lia)) as H. cbv beta in H.
  apply Bool.orb_true_iff in H as [H|H]; [lia|]. apply leqb_eq. exact H.
Qed.

Lemma version_sim : sim decode_version_value a_version.
Proof.
  apply sim_ext with (or_else (shown (fun b =>
      py_dec (Z.shiftr (Z.land b 112) 4) ++ str "." ++ py_dec (Z.land b 15)) a_short_integer) a_text).
  - apply sim_catch; [|apply text_sim]. apply sim_shown. apply short_integer_sim.
  - intros l Hl. unfold or_else, shown, and_then, a_short_integer, a_version, gives.
    destruct l as [|b l]; [reflexivity|]. apply octets_cons in Hl as [Hb _].
    destruct (Z.leb_spec 128 b); [|reflexivity]. rewrite version_octet by lia. reflexivity.
Qed.

Lemma date_sim : sim decode_date_value a_date.
Proof.
  apply sim_bind; [apply long_integer_sim|]. intros t l Hl.
  destruct (Z.leb_spec t 253402300799); destruct (Z.ltb_spec 253402300799 t); try lia; wsteps; cbn; auto.
Qed.

Lemma d_get_find : forall V k (d : list (Z * V)),
  d_get Z.eqb k d = option_map snd (find (fun p => fst p =? k) d).
Proof.
  intros V k d. induction d as [|[k' v] d IH]; [reflexivity|]. cbn [d_get find fst].
  rewrite (Z.eqb_sym k' k). destruct (k =? k'); [reflexivity|exact IH].
Qed.

Lemma a_charset_cons : forall b l, a_charset (b :: l) =
  if b =? 127 then Reads (str "*") l else shown charset_shown an_integer (b :: l).
Proof.
  intros b l. destruct (Z.eqb_spec b 127) as [->|N]; [reflexivity|].
  unfold a_charset. destruct b as [|b|b]; try reflexivity.
  do 7 (destruct b as [b|b|]; try reflexivity); contradiction N; reflexivity.
Qed.

Lemma charset_sim : sim decode_well_known_charset a_charset.
Proof.
  intros l Hl. unfold decode_well_known_charset. wsteps.
  destruct l as [|b l]; cbn [nth_error]; [cbn; auto|]. rewrite a_charset_cons. wsteps.
  destruct (b =? 127).
  - wsteps. apply octets_cons in Hl as [_ Hl]. cbn. auto.
  - pose proof (sim_shown _ _ _ charset_shown _ integer_sim (b :: l) Hl) as H.
    eapply wp_eq; [|exact H]. intros it. unfold st_bind.
    destruct (decode_integer_value it) as [[n|e] it']; [|reflexivity]. unfold st_ret.
    do 2 f_equal. unfold charset_shown. rewrite d_get_find. change well_known_charsets with charset_names.
    destruct (find _ charset_names) as [[k s]|]; reflexivity.
Qed.

Lemma quality_sim : sim decode_q_value a_quality.
Proof.
  apply sim_bind; [apply sim_of_any, uint_var_sim|]. intros q l Hl. unfold beyond_float.
  destruct (Z.ltb_spec 100 q); destruct (Z.leb_spec q 100); try lia.
  - destruct (_ <=? q - 100); wsteps; cbn; auto.
  - wsteps. cbn. auto.
Qed.

(** * Content types *)

Lemma media_shown_sweep : forallb (fun n => match media_shown n with
    | Some m => leqb m (nth (Z.to_nat n) well_known_content_types [])
    | None => false end) (zrange (length well_known_content_types)) = true.
Proof. vm_compute. reflexivity. Qed.

Lemma media_shown_at : forall n, 0 <= n -> media_shown n =
  if n <? zlen well_known_content_types then Some (nth (Z.to_nat n) well_known_content_types [])
  else None.
Proof.
  intros n Hn. destruct (Z.ltb_spec n (zlen well_known_content_types)).
  - pose proof (range_sweep _ _ media_shown_sweep n ltac:(unfold zlen in H; lia)) as H0. cbv beta in H0.
    destruct (media_shown n) as [m|]; [|discriminate]. f_equal. apply leqb_eq. exact H0.
  - unfold media_shown. replace (zlen well_known_content_types) with 76 in H by reflexivity.
    destruct (Z.eqb_spec n 14); [lia|]. apply nth_error_None.
    replace (length assigned_media) with 76%nat by reflexivity. lia.
Qed.

Lemma content_type_at_sim : forall n, 0 <= n -> sim (content_type_at n) (media_by_number n).
Proof.
  intros n Hn l Hl. unfold content_type_at, media_by_number. rewrite (media_shown_at n Hn).
  destruct (n <? zlen well_known_content_types); wsteps; cbn; auto.
Qed.

(** The numbers read are not negative. *)
Definition reads_only {A} (P : A -> Prop) (x : reader A) : Prop :=
  forall l a r, all_octets l -> x l = Reads a r -> P a.

Lemma sim_bind_on : forall A B (P : A -> Prop) (m : ST piter A) (k : A -> ST piter B) x y,
  sim m x -> reads_only P x -> (forall a, P a -> sim (k a) (y a)) -> sim (st_bind m k) (and_then x y).
Proof.
  intros A B P m k x y Hm HP Hk l Hl. apply wp_bind. eapply wp_mono; [apply Hm; exact Hl|].
  intros r l1 p1 (E & -> & Hl1). unfold and_then. destruct r as [a|e]; cbn in E; rewrite <- E.
  - apply Hk; [|exact Hl1]. eapply HP; [exact Hl|]. symmetry. exact E.
  - auto.
Qed.

Lemma up_to_spec : forall stop l s c r, up_to stop l = Some (s, c, r) ->
  l = s ++ c :: r /\ stop c = true /\ Forall (fun b => stop b = false) s.
Proof.
  intros stop l. induction l as [|b l IH]; cbn [up_to]; intros s c r H; [discriminate|].
  destruct (stop b) eqn:E.
  - injection H as <- <- <-. auto.
  - destruct (up_to stop l) as [[[s' c'] r']|]; [|discriminate]. injection H as <- <- <-.
    destruct (IH _ _ _ eq_refl) as (-> & H1 & H2). auto.
Qed.

Lemma a_uintvar_nonneg : reads_only (fun n => 0 <= n) a_uintvar.
Proof.
  intros l n r Hl H. unfold a_uintvar in H. destruct (up_to _ l) as [[[ds d] r']|] eqn:E; [|discriminate].
  injection H as <- <-. apply up_to_spec in E as (-> & Hd & Hds).
  unfold all_octets in Hl. apply Forall_app in Hl as [Hs Hc]. inversion Hc; subst.
  apply base128_nonneg. apply Forall_app. split.
  - clear - Hs Hds. induction ds as [|b ds IH]; cbn; [constructor|].
    inversion Hs; subst. inversion Hds; subst. constructor; [|auto]. unfold digit128, is_octet in *. lia.
  - constructor; [|constructor]. unfold digit128, is_octet in *. lia.
Qed.

Lemma long_integer_nonneg : reads_only (fun n => 0 <= n) a_long_integer.
Proof.
  intros l n r Hl H. unfold a_long_integer, shown, and_then, next_octets in H.
  destruct l as [|b l]; [discriminate|]. apply octets_cons in Hl as [_ Hl].
  destruct (b <=? 30); [|discriminate]. destruct (2 ^ 63 <=? b); [discriminate|].
  destruct (b <=? n_octets l); [|discriminate]. injection H as <- <-.
  apply big_endian_nonneg. apply octets_firstn. exact Hl.
Qed.

Lemma integer_nonneg : reads_only (fun n => 0 <= n) an_integer.
Proof.
  intros l n r Hl H. unfold an_integer in H. destruct l as [|b l]; [discriminate|].
  destruct (Z.leb_spec 128 b).
  - injection H as <- <-. lia.
  - eapply long_integer_nonneg; [exact Hl|exact H].
Qed.

Lemma short_integer_nonneg : reads_only (fun n => 0 <= n) a_short_integer.
Proof.
  intros l n r Hl H. unfold a_short_integer in H. destruct l as [|b l]; [discriminate|].
  destruct (Z.leb_spec 128 b); [|discriminate]. injection H as <- <-. lia.
Qed.

Lemma value_length_nonneg : reads_only (fun n => 0 <= n) a_value_length.
Proof.
  intros l n r Hl H. unfold a_value_length in H. destruct l as [|b l]; [discriminate|].
  apply octets_cons in Hl as [Hb Hl]. destruct (b <=? 30).
  - injection H as <- <-. lia.
  - destruct (b =? 31); [|discriminate]. eapply a_uintvar_nonneg; [exact Hl|exact H].
Qed.

Lemma media_type_sim : sim decode_media_type media_type.
Proof.
  apply sim_catch; [|apply media_by_name_sim].
  apply sim_bind_on with (P := fun n => 0 <= n);
    [apply integer_sim|apply integer_nonneg|apply content_type_at_sim].
Qed.

Lemma constrained_encoding_sim : sim decode_constrained_encoding
  (or_else (shown PInt a_short_integer) (shown PStr media_by_name)).
Proof.
  apply sim_catch; apply sim_shown; [apply short_integer_sim|apply media_by_name_sim].
Qed.

Lemma constrained_media_sim : sim decode_constrained_media constrained_media.
Proof.
  intros l Hl. unfold decode_constrained_media, constrained_media. apply wp_bind.
  eapply wp_mono; [apply constrained_encoding_sim; exact Hl|]. cbv beta. intros r l1 p1 (E & -> & Hl1).
  unfold or_else, shown, and_then, a_short_integer, gives in E.
  destruct l as [|b l]; [apply out_inj in E as [-> ->]; cbn; auto|].
  destruct (Z.leb_spec 128 b).
  - apply out_inj in E as [-> ->]. apply content_type_at_sim; [lia|exact Hl1].
  - cbn [refused] in E. destruct (media_by_name (b :: l)); apply out_inj in E as [-> ->]; wsteps; cbn; auto.
Qed.

(** * Parameters *)

Lemma parameters_12 : get_well_known_parameters (str "1.2") =
  Ok [(0, (str "Q", TQ)); (1, (str "Charset", TCharset)); (2, (str "Level", TVersion));
      (3, (str "Type", TInteger)); (5, (str "Name", TTextString));
      (6, (str "Filename", TTextString)); (7, (str "Differences", TFieldName));
      (8, (str "Padding", TShort)); (9, (str "Type", TConstrained));
      (10, (str "Start", TTextString)); (11, (str "Start-info", TTextString))].
Proof. vm_compute. reflexivity. Qed.

(** Two tables with the same keys, up to a shift, and names, where each decoder of the
    first goes with the reader of the second. *)
Definition tables_agree {V W} (shift : Z) (dec : V -> ST piter W)
  (t : list (Z * (list Z * V))) (u : list (Z * (list Z * reader W))) : Prop :=
  Forall2 (fun p q => fst q = shift + fst p /\ fst (snd p) = fst (snd q) /\
                      sim (dec (snd (snd p))) (snd (snd q))) t u.

Lemma tables_find : forall V W shift (dec : V -> ST piter W) t u n, tables_agree shift dec t u ->
  match d_get Z.eqb n t with
  | Some (name, ty) => exists k x, find (fun p => fst p =? shift + n) u = Some (k, (name, x)) /\
                                   sim (dec ty) x
  | None => find (fun p => fst p =? shift + n) u = None
  end.
Proof.
  intros V W shift dec t u n H. induction H as [|[k [name ty]] [k' [name' x]] t u H H' IH];
    [reflexivity|]. cbn [fst snd] in H. destruct H as (-> & <- & Hs). cbn [d_get find fst].
  destruct (Z.eqb_spec n k) as [->|N].
  - rewrite Z.eqb_refl. eauto.
  - destruct (Z.eqb_spec (shift + k) (shift + n)); [lia|]. exact IH.
Qed.

Lemma parameters_agree : exists t, get_well_known_parameters (str "1.2") = Ok t /\
  tables_agree 0 decode_by_type t numbered_parameters.
Proof.
  eexists. split; [apply parameters_12|]. unfold tables_agree, numbered_parameters.
  repeat (apply Forall2_cons; [cbn [fst snd decode_by_type]; split; [reflexivity|split; [reflexivity|]]|]);
    [..|apply Forall2_nil].
  - apply quality_sim.
  - apply sim_shown, charset_sim.
  - apply sim_shown, version_sim.
  - apply sim_shown, integer_sim.
  - apply sim_shown, text_sim.
  - apply sim_shown, text_sim.
  - apply sim_err.
  - apply sim_shown, short_integer_sim.
  - apply constrained_encoding_sim.
  - apply sim_shown, text_sim.
  - apply sim_shown, text_sim.
Qed.

Lemma numbered_parameter_sim : sim decode_typed_parameter numbered_parameter.
Proof.
  intros l Hl. unfold decode_typed_parameter, decode_well_known_parameter, decode_well_known_parameter_in, numbered_parameter.
  destruct parameters_agree as (t & -> & Ht). cbn [st_lift].
  apply wp_bind, wp_bind. unfold and_then.
  eapply wp_mono; [apply integer_sim; exact Hl|]. cbv beta. intros r l1 p1 (E & -> & Hl1).
  destruct (an_integer l) as [n l2|e l2]; apply out_inj in E as [-> ->]; [|cbn; auto].
  wsteps. pose proof (tables_find _ _ _ _ _ _ n Ht) as H. cbn [Z.add] in H.
  replace (0 + n) with n in H by lia.
  destruct (d_get Z.eqb n t) as [[name ty]|].
  - destruct H as (k & x & -> & Hs). apply wp_ret.
    apply (sim_shown _ _ _ (pair name) _ Hs). exact Hl1.
  - rewrite H. wsteps. cbn. auto.
Qed.

Lemma named_parameter_sim : sim decode_untyped_parameter named_parameter.
Proof.
  apply sim_bind; [apply token_sim|]. intros name. apply sim_shown.
  apply sim_catch; apply sim_shown; [apply integer_sim|apply text_value_sim].
Qed.

Lemma parameter_sim : sim decode_parameter a_parameter.
Proof. apply sim_catch; [apply numbered_parameter_sim|apply named_parameter_sim]. Qed.

Definition parameter_step (fuel : nat) (d : list (list Z * pval)) (r : res (list Z * pval))
  : ST piter (list (list Z * pval)) :=
  match r with
  | Ok (p, v) => parameter_loop fuel (d_set leqb p v d)
  | Err StopIteration => st_ret d
  | Err e => st_err e
  end.

Lemma parameter_loop_step : forall fuel d it, parameter_loop (S fuel) d it =
  parameter_step fuel d (fst (decode_parameter it)) (snd (decode_parameter it)).
Proof.
  intros fuel d it. cbn [parameter_loop]. destruct (decode_parameter it) as [[[p v]|e] it'];
    cbn [fst snd parameter_step]; [reflexivity|destruct e; reflexivity].
Qed.

Lemma parameter_loop_sim : forall fuel d,
  sim (parameter_loop (S fuel) d) (items never a_parameter fuel d).
Proof.
  induction fuel as [|fuel IH]; intros d l Hl;
    (eapply wp_then; [apply parameter_loop_step|]);
    (eapply wp_mono; [apply parameter_sim; exact Hl|]); cbv beta; intros r l1 p1 (E & -> & Hl1);
    cbn [items never]; (destruct (a_parameter l) as [[k v] l2|e l2]; apply out_inj in E as [-> ->];
      cbn [parameter_step]; [|destruct e; wsteps; cbn; auto]).
  - cbn [parameter_loop]. wsteps. cbn. auto.
  - apply IH. exact Hl1.
Qed.

Lemma sim_within : forall A (m : ST piter A) x l, sim m x -> all_octets l ->
  sim (st_lift (fst (m (new_iter l)))) (within l x).
Proof.
  intros A m x l H Hl l' Hl'. wsteps. unfold within.
  destruct (wp_fst _ _ _ _ (H l Hl)) as (r & l1 & p1 & -> & E & _).
  destruct (x l); apply out_inj in E as [-> ->]; cbn; auto.
Qed.

Lemma all_items_sim : forall V (loop : nat -> ST piter (list (list Z * V))) last item d,
  (forall fuel, sim (loop (S fuel)) (items last item fuel d)) ->
  sim (fuelled loop) (all_items last item d).
Proof. intros V loop last item d H l Hl. wsteps. apply H. exact Hl. Qed.

Lemma next_octets_octets : forall n, reads_only all_octets (next_octets n).
Proof.
  intros n l a r Hl H. unfold next_octets in H. destruct (2 ^ 63 <=? n); [discriminate|].
  destruct (n <=? n_octets l); [|discriminate]. injection H as <- <-. apply octets_firstn. exact Hl.
Qed.

Lemma general_content_type_sim : sim decode_content_general_form general_content_type.
Proof.
  apply sim_bind_on with (P := fun n => 0 <= n);
    [apply value_length_sim|apply value_length_nonneg|]. intros n Hn.
  apply sim_bind_on with (P := all_octets); [apply read_n_sim; exact Hn|apply next_octets_octets|].
  intros l Hl. apply sim_within; [|exact Hl]. apply sim_bind; [apply media_type_sim|].
  intros m. apply sim_shown. apply all_items_sim. intros fuel. apply parameter_loop_sim.
Qed.

Lemma content_type_sim : sim decode_content_type_value a_content_type.
Proof.
  apply sim_catch; [|apply general_content_type_sim]. apply sim_shown, constrained_media_sim.
Qed.

(** * Fields *)

Lemma encoded_string_sim : sim decode_encoded_string_value an_encoded_string.
Proof.
  apply sim_catch; [|apply text_sim]. apply sim_bind; [apply value_length_sim|]. intros _.
  apply sim_bind; [|intros _; apply text_sim].
  apply sim_catch; [apply charset_sim|apply sim_err].
Qed.

Lemma flag_sim : sim decode_boolean_value a_flag.
Proof.
  intros l Hl. unfold decode_boolean_value. wsteps.
  destruct l as [|b l]; cbn [nth_error]; [cbn; auto|]. pose proof Hl as Hl'. apply octets_cons in Hl as [Hb Hl].
  destruct (Z.eqb_spec b 128) as [->|N]; [cbn [orb negb]; wsteps; cbn; auto|].
  destruct (Z.eqb_spec b 129) as [->|N']; [cbn [orb negb]; wsteps; cbn; auto|].
  cbn [orb negb]. wsteps. replace (a_flag (b :: l)) with (@refused bool (b :: l)); [cbn; auto|].
  unfold a_flag. destruct b as [|b|b]; try reflexivity.
  do 8 (try (destruct b as [b|b|]; try reflexivity));
    try (contradiction N; reflexivity); contradiction N'; reflexivity.
Qed.

Lemma delivery_time_sim : sim ('(k, n) <~ decode_delivery_time_value ;; st_ret (HTime k n)) a_delivery_time.
Proof.
  intros l Hl. unfold decode_delivery_time_value. apply wp_bind.
  eapply wp_mono.
  { apply (sim_bind _ _ _ _ _ (fun _ => and_then one_octet (fun kind =>
      and_then a_long_integer (fun n l =>
        if kind =? 128 then Reads (str "absolute", n) l
        else if kind =? 129 then Reads (str "relative", n) l
        else refused l))) value_length_sim); [|exact Hl].
    intros _. apply sim_bind; [apply sim_of_any, next_sim|]. intros kind.
    apply sim_bind; [apply long_integer_sim|]. intros n l1 Hl1.
    destruct (kind =? 128); [wsteps; cbn; auto|]. destruct (kind =? 129); wsteps; cbn; auto. }
  cbv beta. intros r l1 p1 (E & -> & Hl1). unfold a_delivery_time, and_then in *.
  destruct (a_value_length l) as [n l2|e l2]; [|apply out_inj in E as [-> ->]; cbn; auto].
  destruct (one_octet l2) as [kind l3|e l3]; [|apply out_inj in E as [-> ->]; cbn; auto].
  destruct (a_long_integer l3) as [t l4|e l4]; [|apply out_inj in E as [-> ->]; cbn; auto].
  destruct (kind =? 128); [apply out_inj in E as [-> ->]; wsteps; cbn; auto|].
  destruct (kind =? 129); apply out_inj in E as [-> ->]; wsteps; cbn; auto.
Qed.

Lemma expiry_sim : sim (v <~ decode_expiry_value ;; st_ret (HP v)) an_expiry.
Proof.
  apply sim_ext with (shown HP (and_then a_value_length (fun _ =>
    and_then one_octet (fun kind =>
    if kind =? 128 then shown PDate a_date
    else if kind =? 129 then shown PInt an_integer
    else refused)))).
  - apply sim_shown. apply sim_bind; [apply value_length_sim|]. intros _.
    apply sim_bind; [apply sim_of_any, next_sim|]. intros kind.
    destruct (kind =? 128); [apply sim_shown, date_sim|].
    destruct (kind =? 129); [apply sim_shown, integer_sim|apply sim_err].
  - intros l _. unfold an_expiry, shown, and_then.
    destruct (a_value_length l); [|reflexivity]. destruct (one_octet rest); [|reflexivity].
    destruct (a0 =? 128); [destruct (a_date rest0); reflexivity|].
    destruct (a0 =? 129); [destruct (an_integer rest0); reflexivity|reflexivity].
Qed.

Lemma sender_sim : sim decode_from_value a_sender.
Proof.
  apply sim_bind; [apply value_length_sim|]. intros _.
  apply sim_bind; [apply sim_of_any, next_sim|]. intros kind.
  destruct (kind =? 129); [apply sim_gives|apply encoded_string_sim].
Qed.

(** A table looked up with the next octet. *)
Lemma a_name_cons : forall t b l, a_name t (b :: l) =
  match d_get Z.eqb b t with Some s => Reads s l | None => refused (b :: l) end.
Proof.
  intros t b l. unfold a_name, name_of. rewrite d_get_find.
  destruct (find _ t) as [[k s]|]; reflexivity.
Qed.

Lemma message_class_sim : sim decode_message_class_value a_message_class.
Proof.
  intros l Hl. unfold decode_message_class_value, a_message_class, or_else. wsteps.
  destruct l as [|b l]; cbn [nth_error]; [cbn; auto|]. pose proof Hl as Hl'. apply octets_cons in Hl as [_ Hl].
  rewrite a_name_cons. change message_class_names with class_identifiers.
  destruct (d_get Z.eqb b class_identifiers); wsteps; [cbn; auto|]. apply token_sim. exact Hl'.
Qed.

Lemma message_type_sim : sim decode_message_type_value a_message_type.
Proof.
  intros l Hl. unfold decode_message_type_value, a_message_type, or_else. wsteps.
  destruct l as [|b l]; cbn [nth_error]; [cbn; auto|]. pose proof Hl as Hl'. apply octets_cons in Hl as [_ Hl].
  rewrite a_name_cons. change message_type_names with message_types_dec.
  destruct (d_get Z.eqb b message_types_dec); wsteps; cbn; auto.
Qed.

Lemma priority_sim : sim decode_priority_value (a_name priority_names).
Proof.
  intros l Hl. unfold decode_priority_value. wsteps.
  destruct l as [|b l]; cbn [nth_error]; [cbn; auto|]. pose proof Hl as Hl'. apply octets_cons in Hl as [_ Hl].
  rewrite a_name_cons. change priority_names with priorities.
  destruct (d_get Z.eqb b priorities); wsteps; cbn; auto.
Qed.

Lemma visibility_sim : sim decode_sender_visibility_value (a_name visibility_names).
Proof.
  intros l Hl. unfold decode_sender_visibility_value. wsteps.
  destruct l as [|b l]; cbn [nth_error]; [cbn; auto|]. pose proof Hl as Hl'. apply octets_cons in Hl as [_ Hl].
  rewrite a_name_cons. unfold visibility_names. cbn [d_get].
  destruct (b =? 128) eqn:E; [cbn [orb negb]; wsteps; rewrite E; cbn; auto|].
  destruct (b =? 129); cbn [orb negb]; wsteps; [rewrite E|]; cbn; auto.
Qed.

Lemma status_sim : forall table d,
  sim (v <~ (byte <~ next ;; st_ret (match d_get Z.eqb byte table with
                                     | Some s => PStr s | None => PInt d end)) ;; st_ret (HP v))
      (a_status table d).
Proof.
  intros table d. apply sim_ext with (shown HP (shown (fun byte => match d_get Z.eqb byte table with
                                     | Some s => PStr s | None => PInt d end) one_octet)).
  - apply sim_shown, sim_shown, sim_of_any, next_sim.
  - intros l _. unfold shown, and_then, a_status, gives, name_of, and_then. destruct (one_octet l); [|reflexivity].
    rewrite d_get_find. destruct (find _ table) as [[k s]|]; reflexivity.
Qed.

Lemma response_sim : sim (v <~ decode_response_status_value ;; st_ret (HP v)) (a_status response_names 129).
Proof.
  intros l Hl. change response_names with response_status_values.
  destruct l as [|b l].
  - unfold decode_response_status_value. wsteps. cbn. auto.
  - apply octets_cons in Hl as [_ Hl]. unfold decode_response_status_value. wsteps.
    unfold a_status, and_then, one_octet, gives, name_of. rewrite d_get_find.
    destruct (find _ response_status_values) as [[k s]|]; cbn; auto.
Qed.

Lemma fields_agree : tables_agree 128 decode_mms_value mms_field_names mms_fields.
Proof.
  unfold tables_agree, mms_field_names, mms_fields. cbv zeta.
  repeat (apply Forall2_cons; [cbn [fst snd decode_mms_value]; split; [reflexivity|split; [reflexivity|]]|]);
    [..|apply Forall2_nil];
    try (apply sim_shown; first [apply encoded_string_sim|apply text_sim|apply flag_sim|apply date_sim
      |apply sender_sim|apply message_class_sim|apply message_type_sim|apply version_sim
      |apply long_integer_sim|apply priority_sim|apply visibility_sim]).
  - apply sim_bind; [apply content_type_sim|]. intros [m ps]. apply sim_gives.
  - apply delivery_time_sim.
  - apply expiry_sim.
  - apply response_sim.
  - apply status_sim.
Qed.

(** * Headers of WSP *)

Lemma names_12 : get_header_field_names (str "1.2") = Ok wsp_names.
Proof. vm_compute. reflexivity. Qed.

Lemma quality_and_parameter_cons : forall b l, a_quality_and_parameter (b :: l) =
  if b =? 128 then and_then a_quality (fun _ =>
                     or_else (shown (fun _ => tt) a_parameter) (gives tt)) l
  else Reads tt (b :: l).
Proof.
  intros b l. destruct (Z.eqb_spec b 128) as [->|N]; [reflexivity|].
  unfold a_quality_and_parameter. destruct b as [|b|b]; try reflexivity.
  do 8 (try (destruct b as [b|b|]; try reflexivity)). contradiction N; reflexivity.
Qed.

Lemma quality_and_parameter_sim : sim
  (b <~ preview ;;
   _ <~ (if b =? 128 then
           _ <~ next ;; _ <~ decode_q_value ;;
           st_catch (_ <~ decode_parameter ;; st_ret tt) DecodeError (st_ret tt)
         else st_ret tt) ;;
   reset_preview) a_quality_and_parameter.
Proof.
  intros l Hl. apply wp_bind, wp_preview. destruct l as [|b l]; cbn [nth_error]; [cbn; auto|].
  pose proof Hl as Hl'. apply octets_cons in Hl as [_ Hl]. rewrite quality_and_parameter_cons.
  apply wp_bind. destruct (b =? 128).
  - apply wp_bind, wp_next. eapply wp_mono.
    { apply (sim_bind _ _ _ _ _ (fun _ => or_else (shown (fun _ => tt) a_parameter) (gives tt)) quality_sim);
        [|exact Hl].
      intros _. apply sim_catch; [|apply sim_gives].
      apply (sim_shown _ _ _ (fun _ => tt)), parameter_sim. }
    cbv beta. intros r l1 p1 (<- & -> & Hl1). destruct r as [[]|e]; [|auto]. wsteps. cbn. auto.
  - wsteps. cbn. auto.
Qed.

Lemma bind_assoc : forall A B C (m : ST piter A) (k : A -> ST piter B) (h : B -> ST piter C) it,
  st_bind (st_bind m k) h it = st_bind m (fun a => st_bind (k a) h) it.
Proof. intros A B C m k h it. unfold st_bind. destruct (m it) as [[a|e] it']; reflexivity. Qed.

Lemma bind_eq : forall A B (m : ST piter A) (k : A -> ST piter B) it,
  st_bind m k it = match m it with (Ok a, it') => k a it' | (Err e, it') => (Err e, it') end.
Proof. reflexivity. Qed.

Lemma accept_sim : sim decode_accept_value an_accept.
Proof.
  apply sim_catch; [apply constrained_media_sim|].
  apply sim_bind; [apply value_length_sim|]. intros _.
  apply sim_bind; [apply media_type_sim|]. intros m.
  intros l Hl. pose proof (sim_shown _ _ _ (fun _ => m) _ quality_and_parameter_sim l Hl) as H.
  eapply wp_eq; [|exact H]. intros it. rewrite bind_assoc. rewrite !(bind_eq _ _ preview).
  destruct (preview it) as [[b|e] it1]; [|reflexivity]. symmetry. apply bind_assoc.
Qed.

Lemma pragma_cons : forall b l, a_pragma (b :: l) =
  if b =? 128 then Reads (HPragma (str "Cache-control") (PStr (str "No-cache"))) l
  else and_then a_value_length (fun _ =>
         shown (fun x => HPragma (fst x) (snd x)) a_parameter) (b :: l).
Proof.
  intros b l. destruct (Z.eqb_spec b 128) as [->|N]; [reflexivity|].
  unfold a_pragma. destruct b as [|b|b]; try reflexivity.
  do 8 (try (destruct b as [b|b|]; try reflexivity)). contradiction N; reflexivity.
Qed.

Lemma pragma_sim : sim ('(p, v) <~ decode_pragma_value ;; st_ret (HPragma p v)) a_pragma.
Proof.
  intros l Hl. unfold decode_pragma_value. apply wp_bind. apply wp_bind, wp_preview.
  destruct l as [|b l]; cbn [nth_error]; [cbn; auto|].
  pose proof Hl as Hl'. apply octets_cons in Hl as [_ Hl]. rewrite pragma_cons.
  destruct (b =? 128); [wsteps; cbn; auto|].
  apply wp_bind, wp_reset. eapply wp_mono.
  { apply (sim_bind _ _ _ _ _ (fun _ => a_parameter) value_length_sim); [|exact Hl'].
    intros _. apply parameter_sim. }
  cbv beta. intros r l1 p1 (E & -> & Hl1). unfold shown, and_then in *.
  destruct (a_value_length (b :: l)) as [n l2|e l2]; [|apply out_inj in E as [-> ->]; cbn; auto].
  destruct (a_parameter l2) as [[k v] l3|e l3]; apply out_inj in E as [-> ->]; wsteps; cbn; auto.
Qed.

Lemma named_header_sim : sim decode_application_header named_header.
Proof.
  apply sim_bind; [apply sim_catch; [apply token_sim|apply text_sim]|]. intros name.
  apply (sim_shown _ _ _ (fun s => (name, HStr s))), text_sim.
Qed.

(** The value of a numbered header, the number having been read. *)
Definition wsp_value_dec (name : list Z) : ST piter hval :=
  match header_field_encoding name with
  | AcceptValue => s <~ decode_accept_value ;; st_ret (HStr s)
  | PragmaValue => '(p, v) <~ decode_pragma_value ;; st_ret (HPragma p v)
  | OtherValue => s <~ decode_text_string ;; st_ret (HStr s)
  end.

Definition value_kind (n : Z) : wap_value :=
  if n =? 0 then AcceptValue else if n =? 31 then PragmaValue else OtherValue.
Definition same_kind (a b : wap_value) : bool :=
  match a, b with
  | AcceptValue, AcceptValue | PragmaValue, PragmaValue | OtherValue, OtherValue => true
  | _, _ => false
  end.

Lemma kinds_sweep : forallb (fun n => match nth_error wsp_names (Z.to_nat n) with
    | Some name => same_kind (header_field_encoding name) (value_kind n)
    | None => false end) (zrange 56) = true.
Proof. vm_compute. reflexivity. Qed.

Lemma wsp_value_sim : forall n name, 0 <= n -> nth_error wsp_names (Z.to_nat n) = Some name ->
  sim (wsp_value_dec name) (wsp_value n).
Proof.
  intros n name Hn H.
  assert (header_field_encoding name = value_kind n) as E.
  { assert (n < 56). { assert (Z.to_nat n < length wsp_names)%nat by (apply nth_error_Some; congruence).
      replace (length wsp_names) with 56%nat in H0 by reflexivity. lia. }
    pose proof (range_sweep _ _ kinds_sweep n ltac:(lia)) as H1. cbv beta in H1. rewrite H in H1.
    destruct (header_field_encoding name), (value_kind n); try discriminate H1; reflexivity. }
  unfold wsp_value_dec. rewrite E. unfold value_kind, wsp_value.
  destruct (n =? 0); [apply sim_shown, accept_sim|]. destruct (n =? 31); [apply pragma_sim|].
  apply sim_shown, text_sim.
Qed.

(** From the number on. *)
Definition numbered_rest (n : Z) : ST piter (list Z * hval) :=
  match nth_error wsp_names (Z.to_nat n) with
  | None => st_err DecodeError
  | Some name => v <~ wsp_value_dec name ;; st_ret (name, v)
  end.

Lemma numbered_rest_sim : forall n, 0 <= n ->
  sim (st_catch (numbered_rest n) DecodeError decode_application_header) (numbered_header n).
Proof.
  intros n Hn. apply sim_catch; [|apply named_header_sim]. unfold numbered_rest.
  destruct (nth_error wsp_names (Z.to_nat n)) as [name|] eqn:E; [|apply sim_err].
  apply sim_shown. apply wsp_value_sim; assumption.
Qed.

Lemma wsp_decode_header_eq : forall it, wsp_decode_header it =
  match decode_short_integer it with
  | (Ok n, it') => st_catch (numbered_rest n) DecodeError decode_application_header it'
  | (Err DecodeError, it') => decode_application_header it'
  | (Err e, it') => (Err e, it')
  end.
Proof.
  intros it. unfold wsp_decode_header, st_catch, decode_well_known_header, st_bind at 1.
  rewrite names_12. destruct (decode_short_integer it) as [[n|e] it']; [reflexivity|].
  destruct e; reflexivity.
Qed.

(** The same with a case distinction on the result of the first step. *)
Definition wsp_header_on (r : res Z) : ST piter (list Z * hval) :=
  match r with
  | Ok n => st_catch (numbered_rest n) DecodeError decode_application_header
  | Err DecodeError => decode_application_header
  | Err e => st_err e
  end.

Lemma wsp_decode_header_then : forall it, wsp_decode_header it =
  wsp_header_on (fst (decode_short_integer it)) (snd (decode_short_integer it)).
Proof.
  intros it. rewrite wsp_decode_header_eq.
  destruct (decode_short_integer it) as [[n|e] it']; [reflexivity|]. destruct e; reflexivity.
Qed.

Lemma wsp_header_sim : sim wsp_decode_header wsp_header.
Proof.
  intros l Hl. eapply wp_then; [apply wsp_decode_header_then|].
  eapply wp_mono; [apply short_integer_sim; exact Hl|]. cbv beta. intros r l1 p1 (E & -> & Hl1).
  unfold a_short_integer, wsp_header in *. destruct l as [|b l].
  - apply out_inj in E as [-> ->]. cbn [wsp_header_on]. wsteps. cbn. auto.
  - destruct (Z.leb_spec 128 b); apply out_inj in E as [-> ->]; cbn [wsp_header_on].
    + apply numbered_rest_sim; [lia|exact Hl1].
    + apply named_header_sim. exact Hl1.
Qed.

(** With the look-ahead on the second octet. *)
Lemma wsp_header_ahead : forall b l, all_octets (b :: l) -> b < 128 ->
  wp wsp_decode_header (b :: l) 1 (fun r l' p' =>
    out r l' = match l with
               | [] => Fails StopIteration (b :: l)
               | c :: _ => if 128 <=? c then numbered_header b l else named_header (b :: l)
               end /\ (r <> Err StopIteration -> p' = 0%nat) /\ all_octets l').
Proof.
  intros b l Hl Hb. eapply wp_then; [apply wsp_decode_header_then|].
  pose proof Hl as Hl'. apply octets_cons in Hl as [Hb' Hl].
  unfold decode_short_integer. apply wp_bind, wp_preview. cbn [nth_error].
  destruct l as [|c l]; cbn [nth_error].
  - cbn [wsp_header_on]. wsteps. cbn. repeat split; auto. intros N. contradiction N; reflexivity.
  - pose proof Hl as Hl''. apply octets_cons in Hl'' as [Hc _].
    rewrite land_128 by exact Hc. destruct (Z.ltb_spec c 128); destruct (Z.leb_spec 128 c); try lia; wsteps.
    + cbn [wsp_header_on]. eapply wp_mono; [apply named_header_sim; exact Hl'|].
      cbv beta. intros r l1 p1 (E & -> & Hl1). auto.
    + cbn [wsp_header_on]. replace (Z.land b 127) with b
        by (rewrite land_127, Z.mod_small by lia; reflexivity).
      eapply wp_mono; [apply numbered_rest_sim; [lia|exact Hl]|].
      cbv beta. intros r l1 p1 (E & -> & Hl1). auto.
Qed.

(** * Headers, parts, messages *)

Lemma as_runtime_error_wp : forall A (m : ST piter A) l p Q,
  wp m l p (fun r l' p' => Q (match r with
                              | Ok a => Ok a
                              | Err DecodeError => Err DecodeError
                              | Err OutOfFuel => Err OutOfFuel
                              | Err _ => Err RuntimeError
                              end) l' p') ->
  wp (as_runtime_error m) l p Q.
Proof.
  intros A m l p Q H it HR. destruct (H it HR) as (r & it1 & l1 & p1 & E & HR1 & HQ).
  unfold as_runtime_error. rewrite E.
  destruct r as [a|e]; [|destruct e]; eexists _, it1, l1, p1; (split; [reflexivity|]; split; [exact HR1|exact HQ]).
Qed.

Lemma wp_and : forall A (m : ST piter A) l p Q Q', wp m l p Q -> wp m l p Q' ->
  wp m l p (fun r l' p' => Q r l' p' /\ Q' r l' p').
Proof.
  intros A m l p Q Q' H H' it HR.
  destruct (H it HR) as (r & it1 & l1 & p1 & E & HR1 & HQ).
  destruct (H' it HR) as (r2 & it2 & l2 & p2 & E2 & HR2 & HQ2).
  rewrite E in E2. injection E2 as <- <-. destruct HR1 as (X1 & X2 & X3). destruct HR2 as (Y1 & Y2 & Y3).
  assert (l1 = l2) as <- by congruence. assert (p1 = p2) as <- by congruence.
  exists r, it1, l1, p1. unfold R. auto 6.
Qed.

Lemma header_sim : forall l, all_octets l -> wp decode_header l 0 (fun r l' p' =>
  out r l' = a_header l /\ (r <> Err StopIteration -> p' = 0%nat) /\ all_octets l').
Proof.
  intros l Hl. unfold decode_header. apply wp_catch. unfold decode_mms_header.
  apply wp_bind, wp_preview. destruct l as [|b l]; cbn [nth_error].
  { cbn. repeat split; auto. }
  pose proof Hl as Hl'. apply octets_cons in Hl as [Hb Hl].
  apply wp_bind, wp_lift. unfold decode_short_integer_from_byte, a_header. rewrite land_128 by exact Hb.
  destruct (Z.ltb_spec b 128); destruct (Z.leb_spec 128 b); try lia.
  - cbn [exn_eqb]. apply wsp_header_ahead; [exact Hl'|lia].
  - rewrite land_127_octet by lia.
    pose proof (tables_find _ _ _ _ _ _ (b - 128) fields_agree) as H1.
    replace (128 + (b - 128)) with b in H1 by lia.
    destruct (d_get Z.eqb (b - 128) mms_field_names) as [[name ty]|].
    + destruct H1 as (k & x & -> & Hs). apply wp_bind, wp_next. apply wp_bind, as_runtime_error_wp.
      eapply wp_mono; [apply (wp_and _ _ _ _ _ _ (Hs l Hl) (safe_mms_value ty l 0%nat))|].
      cbv beta. intros r l1 p1 ((E & -> & Hl1) & pre & _ & Hsane).
      destruct r as [v|e]; cbn in E; rewrite <- E.
      * wsteps. cbn. auto.
      * destruct e; try (cbn; auto; fail); [|contradiction Hsane; reflexivity].
        cbn [exn_eqb]. eapply wp_mono; [apply wsp_header_sim; exact Hl1|].
        cbv beta. intros r l2 p2 (E2 & -> & Hl2). auto.
    + rewrite H1. wsteps. eapply wp_mono; [apply wsp_header_sim; exact Hl'|].
      cbv beta. intros r l2 p2 (E2 & -> & Hl2). auto.
Qed.

(** The two loops over headers, from no look-ahead to any. *)
Definition header_step (fuel : nat) (d : list (list Z * hval)) (r : res (list Z * hval))
  : ST piter (list (list Z * hval)) :=
  match r with
  | Ok (h, v) => if leqb h (str "Content-Type") then st_ret (d_set leqb h v d)
                 else header_loop fuel (d_set leqb h v d)
  | Err StopIteration => st_ret d
  | Err e => st_err e
  end.

Lemma header_loop_step : forall fuel d it, header_loop (S fuel) d it =
  header_step fuel d (fst (decode_header it)) (snd (decode_header it)).
Proof.
  intros fuel d it. cbn [header_loop]. destruct (decode_header it) as [[[p v]|e] it'];
    cbn [fst snd header_step]; [|destruct e; reflexivity].
  destruct (leqb p (str "Content-Type")); reflexivity.
Qed.

Lemma leqb_comm : forall a b, leqb a b = leqb b a.
Proof.
  intros a b. destruct (leqb a b) eqn:E.
  - apply leqb_eq in E as ->. symmetry. apply leqb_refl.
  - destruct (leqb b a) eqn:F; [|reflexivity]. apply leqb_eq in F as ->.
    rewrite leqb_refl in E. discriminate.
Qed.

Lemma header_loop_sim : forall fuel d l, all_octets l ->
  wp (header_loop (S fuel) d) l 0 (fun r l' p' =>
    out r l' = items (leqb (str "Content-Type")) a_header fuel d l /\ all_octets l').
Proof.
  induction fuel as [|fuel IH]; intros d l Hl;
    (eapply wp_then; [apply header_loop_step|]);
    (eapply wp_mono; [apply header_sim; exact Hl|]); cbv beta; intros r l1 p1 (E & Hp & Hl1);
    cbn [items]; (destruct (a_header l) as [[k v] l2|e l2]; apply out_inj in E as [-> ->];
      cbn [header_step]; [|destruct e; wsteps; cbn; auto]);
    rewrite leqb_comm; (destruct (leqb (str "Content-Type") k); [wsteps; cbn; auto|]).
  - cbn [header_loop]. wsteps. cbn. auto.
  - rewrite Hp by discriminate. apply IH. exact Hl1.
Qed.

Definition part_header_step (fuel : nat) (d : list (list Z * hval)) (r : res (list Z * hval))
  : ST piter (list (list Z * hval)) :=
  match r with
  | Ok (h, v) => part_header_loop fuel (d_set leqb h v d)
  | Err StopIteration => st_ret d
  | Err e => st_err e
  end.

Lemma part_header_loop_step : forall fuel d it, part_header_loop (S fuel) d it =
  part_header_step fuel d (fst (decode_header it)) (snd (decode_header it)).
Proof.
  intros fuel d it. cbn [part_header_loop]. destruct (decode_header it) as [[[p v]|e] it'];
    cbn [fst snd part_header_step]; [reflexivity|destruct e; reflexivity].
Qed.

Lemma part_header_loop_sim : forall fuel d l, all_octets l ->
  wp (part_header_loop (S fuel) d) l 0 (fun r l' p' =>
    out r l' = items never a_header fuel d l /\ all_octets l').
Proof.
  induction fuel as [|fuel IH]; intros d l Hl;
    (eapply wp_then; [apply part_header_loop_step|]);
    (eapply wp_mono; [apply header_sim; exact Hl|]); cbv beta; intros r l1 p1 (E & Hp & Hl1);
    cbn [items never]; (destruct (a_header l) as [[k v] l2|e l2]; apply out_inj in E as [-> ->];
      cbn [part_header_step]; [|destruct e; wsteps; cbn; auto]).
  - cbn [part_header_loop]. wsteps. cbn. auto.
  - rewrite Hp by discriminate. apply IH. exact Hl1.
Qed.

Definition part_headers : reader (list (list Z * pval) * list (list Z * hval)) :=
  and_then a_content_type (fun x =>
    shown (pair (snd x))
      (all_items never a_header [(str "Content-Type", HType (fst x) (snd x))])).

Lemma part_headers_eq : forall l, all_octets l -> decode_part_headers l = result (part_headers l).
Proof.
  intros l Hl. unfold decode_part_headers.
  assert (wp ('(m, ps) <~ decode_content_type_value ;;
        d <~ fuelled (fun f => part_header_loop f [(str "Content-Type", HType m ps)]) ;;
        st_ret (ps, d)) l 0 (fun r l' _ => out r l' = part_headers l)) as H.
  { apply wp_bind. eapply wp_mono; [apply content_type_sim; exact Hl|].
    cbv beta. intros r l1 p1 (E & -> & Hl1). unfold part_headers, and_then.
    destruct (a_content_type l) as [[m ps] l2|e l2]; apply out_inj in E as [-> ->]; [|reflexivity].
    wsteps. eapply wp_mono; [apply part_header_loop_sim; exact Hl1|].
    cbv beta. intros r l3 p3 (E & _). unfold shown, and_then, all_items. cbn [fst snd].
    destruct (items _ _ _ _ l2) as [d l4|e l4]; apply out_inj in E as [-> ->]; wsteps; reflexivity. }
  destruct (wp_fst _ _ _ _ H) as (r & l' & p' & -> & <-). destruct r; reflexivity.
Qed.

Lemma part_sim : sim decode_part a_part.
Proof.
  apply sim_bind_on with (P := fun n => 0 <= n);
    [apply sim_of_any, uint_var_sim|apply a_uintvar_nonneg|]. intros n Hn.
  apply sim_bind_on with (P := fun n => 0 <= n);
    [apply sim_of_any, uint_var_sim|apply a_uintvar_nonneg|]. intros k Hk.
  apply sim_bind_on with (P := all_octets); [apply read_n_sim; exact Hn|apply next_octets_octets|].
  intros l Hl. apply sim_bind.
  - intros l' Hl'. wsteps. rewrite (part_headers_eq l Hl). fold part_headers. unfold within.
    destruct (part_headers l); cbn; auto.
  - intros [ps d]. apply (sim_shown _ _ _ (fun data => Part d ps None (Some data))).
    apply read_n_sim. exact Hk.
Qed.

Lemma parts_loop_sim : forall fuel n l, (length l < fuel)%nat -> 0 <= n -> all_octets l ->
  wp (parts_loop fuel n) l 0 (fun r l' p' => out r l' = some_parts (Z.to_nat n) l).
Proof.
  induction fuel as [|fuel IH]; intros n l Hf Hn Hl; [lia|]. cbn [parts_loop].
  destruct (Z.ltb_spec 0 n).
  - replace (Z.to_nat n) with (S (Z.to_nat (n - 1))) by lia. cbn [some_parts]. unfold and_then at 1.
    apply wp_bind.
    eapply wp_mono; [apply (wp_and _ _ _ _ _ _ (part_sim l Hl) (safe_part l 0%nat))|].
    cbv beta. intros r l1 p1 ((E & -> & Hl1) & pre & Epre & Hpre).
    destruct (a_part l) as [a l2|e l2]; apply out_inj in E as [-> ->]; [|reflexivity].
    apply wp_bind. eapply wp_mono; [apply IH; [|lia|exact Hl1]|].
    { rewrite Epre, app_length in Hf. lia. }
    cbv beta. intros r l3 p3 E. unfold shown, and_then.
    destruct (some_parts (Z.to_nat (n - 1)) l2); apply out_inj in E as [-> ->]; wsteps; reflexivity.
  - assert (n = 0) as -> by lia. wsteps. reflexivity.
Qed.

Lemma uintvar_fails : forall l e r, a_uintvar l = Fails e r -> e = StopIteration.
Proof.
  intros l e r H. unfold a_uintvar in H. destruct (up_to _ l) as [[[ds d] r']|]; [discriminate|].
  injection H as <- _. reflexivity.
Qed.

Definition body_step (r : res Z) : ST piter (list part) :=
  match r with
  | Ok n => _ <~ xrange_check n ;; fuelled (fun f => parts_loop f n)
  | Err StopIteration => st_ret []
  | Err e => st_err e
  end.

Lemma body_then : forall it, decode_message_body it =
  body_step (fst (decode_uint_var it)) (snd (decode_uint_var it)).
Proof.
  intros it. unfold decode_message_body. destruct (decode_uint_var it) as [[n|e] it']; [reflexivity|].
  destruct e; reflexivity.
Qed.

Lemma body_sim : forall l p, all_octets l ->
  wp decode_message_body l p (fun r l' p' => out r l' = a_body l).
Proof.
  intros l p Hl. eapply wp_then; [apply body_then|].
  eapply wp_mono; [apply uint_var_sim; exact Hl|]. cbv beta. intros r l1 p1 (E & -> & Hl1).
  unfold a_body. pose proof (fun n r => a_uintvar_nonneg l n r Hl) as Hn.
  pose proof (fun e r => uintvar_fails l e r) as He.
  destruct (a_uintvar l) as [n l2|e l2]; apply out_inj in E as [-> ->].
  - specialize (Hn n l2 eq_refl). cbn [body_step]. unfold xrange_check, maxint.
    replace (9223372036854775807 <? n) with (2 ^ 63 <=? n) by (change (2 ^ 63) with 9223372036854775808; lia).
    destruct (2 ^ 63 <=? n); wsteps; [reflexivity|]. apply parts_loop_sim; [lia|exact Hn|exact Hl1].
  - rewrite (He e l2 eq_refl). cbn [body_step]. wsteps. reflexivity.
Qed.

Lemma message_sim : forall data, all_octets data -> decode_data data = result (a_message data).
Proof.
  intros data Hd. unfold decode_data.
  assert (wp (d <~ decode_message_header ;; ps <~ decode_message_body ;;
              st_ret (Message d [] ps 176 220)) data 0 (fun r l' _ => out r l' = a_message data)) as H.
  { apply wp_bind. unfold decode_message_header. wsteps.
    eapply wp_mono; [apply header_loop_sim; exact Hd|].
    cbv beta. intros r l1 p1 (E & Hl1). unfold a_message, and_then, all_items.
    change default_headers with [(str "Message-Type", HStr (str "m-send-req"));
               (str "Transaction-Id", HStr (str "1234"));
               (str "MMS-Version", HStr (str "1.0"));
               (str "Content-Type", HType (str "application/vnd.wap.multipart.mixed") [])] in E.
    destruct (items _ _ _ _ data) as [d l2|e l2]; apply out_inj in E as [-> ->]; [|reflexivity].
    wsteps. eapply wp_mono; [apply body_sim; exact Hl1|]. cbv beta. intros r l3 p3 E.
    unfold shown, and_then. destruct (a_body l2); apply out_inj in E as [-> ->]; wsteps; reflexivity. }
  destruct (wp_fst _ _ _ _ H) as (r & l' & p' & -> & <-). destruct r; reflexivity.
Qed.

(** * The others *)

Lemma uint8_sim : sim decode_uint_8 a_uint8.
Proof.
  intros l Hl. unfold decode_uint_8, a_uint8. wsteps. destruct l as [|b l]; [cbn; auto|].
  apply octets_cons in Hl as [_ Hl]. wsteps.
  replace (Z.land b 15) with (b mod 16) by (symmetry; apply (Z.land_ones b 4); lia). cbn. auto.
Qed.

Lemma no_value_sim : sim decode_no_value no_value.
Proof. apply sim_bind; [apply sim_of_any, next_sim|]. intros _. apply sim_err. Qed.

Lemma untyped_sim : sim decode_untyped_value untyped.
Proof. apply sim_catch; apply sim_shown; [apply integer_sim|apply text_value_sim]. Qed.

Lemma compact_sim : sim decode_compact_value typed.
Proof. apply sim_catch; apply sim_shown; [apply integer_sim|apply text_sim]. Qed.

Lemma to_zero_fails : forall l e r, to_zero l = Fails e r -> e = StopIteration.
Proof.
  intros l e r H. unfold to_zero in H. destruct (up_to _ l) as [[[s c] r']|]; [discriminate|].
  injection H as <- _. reflexivity.
Qed.

Lemma text_fails : forall l e r, a_text l = Fails e r -> e = StopIteration.
Proof.
  intros [|b l] e r H; [injection H as <- _; reflexivity|]. rewrite a_text_cons in H.
  destruct (b =? 127); eapply to_zero_fails; exact H.
Qed.

Lemma typed_sim : sim decode_typed_value typed.
Proof.
  apply sim_ext with (or_else typed (shown PStr a_text_value)).
  - apply sim_catch; [apply compact_sim|]. apply sim_shown, text_value_sim.
  - intros l _. unfold or_else at 1. destruct (typed l) as [v r|e r] eqn:E; [reflexivity|].
    assert (e <> DecodeError) as N; [|destruct e; congruence].
    unfold typed, or_else, shown, and_then, gives in E.
    destruct (an_integer l) as [n l2|e2 l2] eqn:F; [discriminate|].
    destruct e2; try (injection E as <- _; discriminate).
    destruct (a_text l2) as [s l3|e3 l3] eqn:G; [discriminate|]. injection E as <- _.
    apply text_fails in G as ->. discriminate.
Qed.

(** * From the relation to iterators *)

Lemma sim_follows : forall A (m : ST piter A) x, sim m x ->
  forall it, all_octets (remaining it) -> it_pos it = 0%nat ->
  exists it', it_pos it' = 0%nat /\ match x (remaining it) with
    | Reads a rest => m it = (Ok a, it') /\ remaining it' = rest
    | Fails e rest => m it = (Err e, it') /\ remaining it' = rest
    end.
Proof.
  intros A m x H it Hl Hp.
  destruct (H (remaining it) Hl it) as (r & it1 & l1 & p1 & E & HR & E2 & -> & Ho).
  { unfold R. rewrite Hp. repeat split; auto. apply Nat.le_0_l. }
  exists it1. destruct HR as (R1 & R2 & _). split; [exact R2|].
  rewrite <- E2, E. destruct r; cbn; auto.
Qed.
