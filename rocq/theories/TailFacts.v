(** The readers of SpecReader do not look past what they take. *)
From Coq Require Import Lia ZifyBool ZifyNat ZArith List.
Import ListNotations.
From Verif Require Import Py WspDec Message SpecWsp SpecMms SpecReader.
Open Scope Z_scope.

(** What is read, and what is refused, does not depend on the octets behind it; and when
    the octets end none are left. *)
Definition local {A} (r : reader A) : Prop := forall l,
  match r l with
  | Reads a rest => forall x, r (l ++ x) = Reads a (rest ++ x)
  | Fails DecodeError rest => forall x, r (l ++ x) = Fails DecodeError (rest ++ x)
  | Fails _ _ => True
  end.
Definition drained {A} (r : reader A) : Prop := forall l rest,
  r l = Fails StopIteration rest -> rest = [].

Lemma local_reads : forall {A} (r : reader A) l a rest x, local r -> r l = Reads a rest ->
  r (l ++ x) = Reads a (rest ++ x).
Proof. intros A r l a rest x H E. specialize (H l). rewrite E in H. apply H. Qed.

Lemma local_then : forall {A B} (r : reader A) (s : A -> reader B),
  local r -> (forall a, local (s a)) -> local (and_then r s).
Proof.
  intros A B r s Hr Hs l. unfold and_then. specialize (Hr l).
  destruct (r l) as [a rest|e rest].
  - specialize (Hs a rest). destruct (s a rest) as [b rest'|[] rest']; try exact I;
      intros x; rewrite (Hr x); apply Hs.
  - destruct e; try exact I. intros x. now rewrite (Hr x).
Qed.
Lemma local_else : forall {A} (r s : reader A), local r -> local s -> local (or_else r s).
Proof.
  intros A r s Hr Hs l. unfold or_else. specialize (Hr l).
  destruct (r l) as [a rest|[] rest]; try exact I.
  - intros x. now rewrite (Hr x).
  - specialize (Hs rest). destruct (s rest) as [b rest'|[] rest']; try exact I;
      intros x; rewrite (Hr x); apply Hs.
Qed.
Lemma local_gives : forall {A} (a : A), local (gives a).
Proof. intros A a l x. reflexivity. Qed.
Lemma local_shown : forall {A B} (f : A -> B) r, local r -> local (shown f r).
Proof. intros. apply local_then; [assumption|intros; apply local_gives]. Qed.

Lemma drained_then : forall {A B} (r : reader A) (s : A -> reader B),
  drained r -> (forall a, drained (s a)) -> drained (and_then r s).
Proof.
  intros A B r s Hr Hs l rest. unfold and_then. specialize (Hr l).
  destruct (r l) as [a rest'|e rest']; [apply Hs|]. intros E. inversion E. subst. now apply Hr.
Qed.
Lemma drained_else : forall {A} (r s : reader A), drained r -> drained s -> drained (or_else r s).
Proof.
  intros A r s Hr Hs l rest. unfold or_else. specialize (Hr l).
  destruct (r l) as [a rest'|[] rest']; intros E; try discriminate; try (inversion E; subst; now apply Hr).
  now apply (Hs rest').
Qed.
Lemma drained_gives : forall {A} (a : A), drained (gives a).
Proof. intros A a l rest E. discriminate. Qed.
Lemma drained_shown : forall {A B} (f : A -> B) r, drained r -> drained (shown f r).
Proof. intros. apply drained_then; [assumption|intros; apply drained_gives]. Qed.

(** Both at once. *)
Definition tidy {A} (r : reader A) : Prop := local r /\ drained r.
Lemma tidy_then : forall {A B} (r : reader A) (s : A -> reader B),
  tidy r -> (forall a, tidy (s a)) -> tidy (and_then r s).
Proof.
  intros A B r s (H1 & H2) Hs. split; [apply local_then|apply drained_then]; auto; intros a; apply Hs.
Qed.
Lemma tidy_else : forall {A} (r s : reader A), tidy r -> tidy s -> tidy (or_else r s).
Proof. intros A r s (H1 & H2) (H3 & H4). split; [now apply local_else|now apply drained_else]. Qed.
Lemma tidy_gives : forall {A} (a : A), tidy (gives a).
Proof. split; [apply local_gives|apply drained_gives]. Qed.
Lemma tidy_shown : forall {A B} (f : A -> B) r, tidy r -> tidy (shown f r).
Proof. intros. apply tidy_then; [assumption|intros; apply tidy_gives]. Qed.
Lemma tidy_refused : forall {A}, tidy (@refused A).
Proof. intros A. split; [intros l x; reflexivity|intros l rest E; discriminate]. Qed.
Lemma tidy_fails : forall {A} e, e <> StopIteration -> tidy (fun l => @Fails A e l).
Proof.
  intros A e N. split; [intros l; destruct e; try exact I; reflexivity|].
  intros l rest E. inversion E. contradiction.
Qed.
(** A choice by the first octet. *)
Lemma tidy_first : forall {A} (f : Z -> reader A),
  (forall b l x, match f b l with
                 | Reads a rest => f b (l ++ x) = Reads a (rest ++ x)
                 | Fails DecodeError rest => f b (l ++ x) = Fails DecodeError (rest ++ x)
                 | Fails _ _ => True end) ->
  (forall b, drained (f b)) ->
  tidy (fun l => match l with [] => ended | b :: r => f b r end).
Proof.
  intros A f Hf Hd. split.
  - intros [|b l]; [exact I|]. pose proof (Hf b l) as H.
    destruct (f b l) as [a rest|[] rest]; try exact I; exact H.
  - intros [|b l] rest E; [inversion E; reflexivity|]. exact (Hd b l rest E).
Qed.

(** * Numbers and texts *)

Lemma up_to_app : forall stop l s c r x, up_to stop l = Some (s, c, r) ->
  up_to stop (l ++ x) = Some (s, c, r ++ x).
Proof.
  intros stop l. induction l as [|b l IH]; intros s c r x E; [discriminate|].
  cbn in *. destruct (stop b); [inversion E; reflexivity|].
  destruct (up_to stop l) as [[[s' c'] r']|]; [|discriminate]. inversion E. subst.
  now rewrite (IH _ _ _ x eq_refl).
Qed.

Lemma tidy_one : tidy one_octet.
Proof.
  split; [intros [|b l]; [exact I|intros x; reflexivity]|].
  intros [|b l] rest E; inversion E; reflexivity.
Qed.
Lemma tidy_next : forall n, tidy (next_octets n).
Proof.
  intros n. unfold next_octets. split.
  - intros l. destruct (2 ^ 63 <=? n) eqn:B; [exact I|].
    destruct (n <=? n_octets l) eqn:E; [|exact I]. intros x.
    assert (L : n_octets (l ++ x) = n_octets l + n_octets x).
    { unfold n_octets. rewrite app_length. lia. }
    assert (X : 0 <= n_octets x) by (unfold n_octets; lia).
    replace (n <=? n_octets (l ++ x)) with true by lia.
    unfold n_octets in E.
    rewrite firstn_app, skipn_app.
    replace (Z.to_nat n - length l)%nat with 0%nat by lia.
    cbn [firstn skipn]. now rewrite app_nil_r.
  - intros l rest. destruct (2 ^ 63 <=? n); [discriminate|].
    destruct (n <=? n_octets l); [discriminate|]. intros E. now inversion E.
Qed.
Lemma tidy_upto : forall {A} stop (f : list Z -> Z -> A),
  tidy (fun l => match up_to stop l with Some (s, c, r) => Reads (f s c) r | None => ended end).
Proof.
  intros A stop f. split.
  - intros l. destruct (up_to stop l) as [[[s c] r]|] eqn:E; [|exact I].
    intros x. now rewrite (up_to_app _ _ _ _ _ x E).
  - intros l rest. destruct (up_to stop l) as [[[s c] r]|]; [discriminate|]. intros E. now inversion E.
Qed.
Lemma tidy_uintvar : tidy a_uintvar.
Proof. apply (tidy_upto (fun b => b <? 128) (fun ds d => base128 (map (fun b => b - 128) ds ++ [d]))). Qed.
Lemma tidy_zero : tidy to_zero.
Proof. apply (tidy_upto (Z.eqb 0) (fun s _ => s)). Qed.

(** A choice by the first octet, the octet staying in front. *)
Lemma tidy_peek : forall {A} (c : Z -> bool) (r s : reader A), tidy r -> tidy s ->
  tidy (fun l => match l with [] => ended | b :: _ => if c b then r l else s l end).
Proof.
  intros A c r s (R1 & R2) (S1 & S2). split.
  - intros [|b l]; [exact I|]. cbn [app].
    destruct (c b); [exact (R1 (b :: l))|exact (S1 (b :: l))].
  - intros [|b l] rest E; [now inversion E|]. destruct (c b); [now apply R2 in E|now apply S2 in E].
Qed.
(** The octet being taken. *)
Lemma tidy_take : forall {A} (f : Z -> reader A), (forall b, tidy (f b)) ->
  tidy (fun l => match l with [] => ended | b :: r => f b r end).
Proof.
  intros A f H. apply tidy_first.
  - intros b l x. destruct (H b) as (L & _). specialize (L l).
    destruct (f b l) as [a rest|[] rest]; try exact I; apply L.
  - intros b. apply H.
Qed.
(** Either. *)
Lemma tidy_case : forall {A} (c : Z -> bool) (f : Z -> reader A) (s : reader A),
  (forall b, tidy (f b)) -> tidy s ->
  tidy (fun l => match l with [] => ended | b :: r => if c b then f b r else s l end).
Proof.
  intros A c f s H (S1 & S2). split.
  - intros [|b l]; [exact I|]. cbn [app].
    destruct (c b).
    + destruct (H b) as (L & _). specialize (L l). destruct (f b l) as [a rest|[] rest]; try exact I; apply L.
    + exact (S1 (b :: l)).
  - intros [|b l] rest E; [now inversion E|].
    destruct (c b); [now apply (proj2 (H b)) in E|now apply S2 in E].
Qed.
Lemma tidy_ext : forall {A} (r s : reader A), (forall l, r l = s l) -> tidy r -> tidy s.
Proof.
  intros A r s H (R1 & R2). split.
  - intros l. specialize (R1 l). rewrite <- H. destruct (r l) as [a rest|[] rest]; try exact I;
      intros x; rewrite <- H; apply R1.
  - intros l rest E. rewrite <- H in E. exact (R2 l rest E).
Qed.
Lemma tidy_if : forall {A} (c : bool) (r s : reader A), tidy r -> tidy s ->
  tidy (fun l => if c then r l else s l).
Proof. intros A [] r s H1 H2; [exact H1|exact H2]. Qed.

Lemma tidy_short : tidy a_short_integer.
Proof.
  apply (tidy_case (fun b => 128 <=? b) (fun b => gives (b - 128)) refused);
    [intros; apply tidy_gives|apply tidy_refused].
Qed.
Lemma tidy_long : tidy a_long_integer.
Proof.
  apply (tidy_case (fun n => n <=? 30) (fun n => shown big_endian (next_octets n)) refused);
    [intros; apply tidy_shown, tidy_next|apply tidy_refused].
Qed.
Lemma tidy_integer : tidy an_integer.
Proof.
  apply (tidy_case (fun b => 128 <=? b) (fun b => gives (b - 128)) a_long_integer);
    [intros; apply tidy_gives|apply tidy_long].
Qed.
Lemma tidy_length : tidy a_value_length.
Proof.
  eapply tidy_ext; [|apply (tidy_case (fun b => b <=? 30) gives
          (fun l => match l with [] => ended
                    | b :: r => if b =? 31 then a_uintvar r else refused l end))].
  - intros [|b l]; reflexivity.
  - intros; apply tidy_gives.
  - apply (tidy_case (fun b => b =? 31) (fun _ => a_uintvar) refused);
      [intros; apply tidy_uintvar|apply tidy_refused].
Qed.
Lemma tidy_text : tidy a_text.
Proof.
  apply (tidy_ext (fun l => match l with [] => ended
           | b :: r => if b =? 127 then to_zero r else to_zero l end)).
  - intros [|b l]; [reflexivity|]. destruct (b =? 127) eqn:E.
    + apply Z.eqb_eq in E. now subst b.
    + unfold a_text. destruct b as [|p|p]; try reflexivity.
      do 7 (destruct p as [p|p|]; try reflexivity). discriminate.
  - apply (tidy_case (fun b => b =? 127) (fun _ => to_zero) to_zero); intros; apply tidy_zero.
Qed.
Lemma tidy_token : tidy a_token.
Proof.
  apply (tidy_peek in_token _ refused); [|apply tidy_refused].
  apply (tidy_upto (fun c => negb (in_token c)) (fun s _ => s)).
Qed.
Lemma tidy_text_value : tidy a_text_value.
Proof. apply (tidy_peek in_token a_token (gives [])); [apply tidy_token|apply tidy_gives]. Qed.
Lemma tidy_version : tidy a_version.
Proof.
  apply (tidy_case (fun b => 128 <=? b)
    (fun b => gives (small_dec ((b - 128) / 16) ++ str "." ++ small_dec (b mod 16))) a_text);
    [intros; apply tidy_gives|apply tidy_text].
Qed.
Lemma tidy_date : tidy a_date.
Proof.
  apply tidy_then; [apply tidy_long|]. intros t.
  apply (tidy_if (253402300799 <? t) (fun l => Fails ValueError l) (gives t));
    [now apply tidy_fails|apply tidy_gives].
Qed.
Lemma tidy_charset : tidy a_charset.
Proof.
  apply (tidy_ext (fun l => match l with [] => ended
           | b :: r => if b =? 127 then gives (str "*") r else shown charset_shown an_integer l end)).
  - intros [|b l]; [reflexivity|]. destruct (b =? 127) eqn:E.
    + apply Z.eqb_eq in E. now subst b.
    + unfold a_charset. destruct b as [|p|p]; try reflexivity.
      do 7 (destruct p as [p|p|]; try reflexivity). discriminate.
  - apply (tidy_case (fun b => b =? 127) (fun _ => gives (str "*")));
      [intros; apply tidy_gives|apply tidy_shown, tidy_integer].
Qed.
Lemma tidy_quality : tidy a_quality.
Proof.
  apply tidy_then; [apply tidy_uintvar|]. intros q.
  apply (tidy_if (q <=? 100) (gives (PRatio (q - 1) 100))
    (fun l => if 2 ^ 1024 - 2 ^ 970 <=? q - 100 then Fails OverflowError l
                else Reads (PRatio (q - 100) 1000) l)); [apply tidy_gives|].
  apply (tidy_if (2 ^ 1024 - 2 ^ 970 <=? q - 100) (fun l => Fails OverflowError l)
    (gives (PRatio (q - 100) 1000))); [now apply tidy_fails|apply tidy_gives].
Qed.

(** * Content types *)

Lemma tidy_media_number : forall n, tidy (media_by_number n).
Proof.
  intros n. unfold media_by_number. destruct (media_shown n) as [m|]; [apply (tidy_gives m)|apply tidy_refused].
Qed.
Lemma tidy_media_name : tidy media_by_name.
Proof.
  apply (tidy_peek (fun b => (32 <=? b) && negb (b =? 127)) to_zero refused);
    [apply tidy_zero|apply tidy_refused].
Qed.
Lemma tidy_constrained : tidy constrained_media.
Proof.
  apply (tidy_case (fun b => 128 <=? b) (fun b => media_by_number (b - 128)) media_by_name);
    [intros; apply tidy_media_number|apply tidy_media_name].
Qed.
Lemma tidy_media : tidy media_type.
Proof.
  apply tidy_else; [apply tidy_then; [apply tidy_integer|apply tidy_media_number]|apply tidy_media_name].
Qed.
Lemma tidy_numbered : tidy numbered_parameter.
Proof.
  apply tidy_then; [apply tidy_integer|]. intros n.
  destruct (find (fun p => fst p =? n) numbered_parameters) as [[k [name value]]|] eqn:E;
    [|apply tidy_refused].
  apply tidy_shown. apply find_some in E. destruct E as (E & _). cbn in E.
  repeat (destruct E as [E|E]; [inversion E; subst|]); try contradiction; clear E;
    first [ apply tidy_quality
          | apply tidy_else; [apply tidy_shown, tidy_short|apply tidy_shown, tidy_media_name]
          | apply tidy_shown; first [apply tidy_charset | apply tidy_version | apply tidy_integer
              | apply tidy_text | apply tidy_short]
          | now apply tidy_fails ].
Qed.
Lemma tidy_parameter : tidy a_parameter.
Proof.
  apply tidy_else; [apply tidy_numbered|]. apply tidy_then; [apply tidy_token|]. intros name.
  apply tidy_shown, tidy_else; apply tidy_shown; [apply tidy_integer|apply tidy_text_value].
Qed.

Lemma local_within : forall {A} l (r : reader A), local (within l r).
Proof. intros A l r rest. unfold within. destruct (r l) as [a r'|[] r']; try exact I; intros x; reflexivity. Qed.
Lemma local_content_type : local a_content_type.
Proof.
  apply local_else; [apply local_shown, tidy_constrained|].
  apply local_then; [apply tidy_length|]. intros n.
  apply local_then; [apply tidy_next|]. intros l. apply local_within.
Qed.

(** * Fields *)

Lemma tidy_encoded : tidy an_encoded_string.
Proof.
  apply tidy_else; [|apply tidy_text].
  apply tidy_then; [apply tidy_length|]. intros _.
  apply tidy_then; [|intros _; apply tidy_text].
  apply tidy_else; [apply tidy_charset|now apply tidy_fails].
Qed.
Lemma tidy_name : forall t, tidy (a_name t).
Proof.
  intros t. split.
  - intros [|b l]; [exact I|]. unfold a_name. cbn [app].
    destruct (name_of t b); intros x; reflexivity.
  - intros [|b l] rest E; [now inversion E|]. unfold a_name in E. destruct (name_of t b); discriminate.
Qed.
Lemma tidy_flag : tidy a_flag.
Proof.
  apply (tidy_ext (fun l => match l with [] => ended
           | b :: r => if b =? 128 then gives true r else
               (fun l => match l with [] => ended
                 | b :: r => if b =? 129 then gives false r else refused l end) l end)).
  - intros [|b l]; [reflexivity|]. destruct (b =? 128) eqn:E.
    + apply Z.eqb_eq in E. now subst b.
    + destruct (b =? 129) eqn:E2; [apply Z.eqb_eq in E2; now subst b|].
      unfold a_flag. destruct b as [|p|p]; try reflexivity.
      do 8 (destruct p as [p|p|]; try reflexivity); discriminate.
  - apply (tidy_case (fun b => b =? 128) (fun _ => gives true)); [intros; apply tidy_gives|].
    apply (tidy_case (fun b => b =? 129) (fun _ => gives false)); [intros; apply tidy_gives|apply tidy_refused].
Qed.
Lemma tidy_delivery : tidy a_delivery_time.
Proof.
  apply tidy_then; [apply tidy_length|]. intros _.
  apply tidy_then; [apply tidy_one|]. intros kind.
  apply tidy_then; [apply tidy_long|]. intros n.
  destruct (kind =? 128); [apply (tidy_gives (HTime (str "absolute") n))|].
  destruct (kind =? 129); [apply (tidy_gives (HTime (str "relative") n))|apply tidy_refused].
Qed.
Lemma tidy_expiry : tidy an_expiry.
Proof.
  apply tidy_then; [apply tidy_length|]. intros _.
  apply tidy_then; [apply tidy_one|]. intros kind.
  destruct (kind =? 128); [apply tidy_shown, tidy_date|].
  destruct (kind =? 129); [apply tidy_shown, tidy_integer|apply tidy_refused].
Qed.
Lemma tidy_sender : tidy a_sender.
Proof.
  apply tidy_then; [apply tidy_length|]. intros _.
  apply tidy_then; [apply tidy_one|]. intros kind.
  destruct (kind =? 129); [apply tidy_gives|apply tidy_encoded].
Qed.
Lemma tidy_status : forall t o, tidy (a_status t o).
Proof. intros. apply tidy_then; [apply tidy_one|]. intros; apply tidy_gives. Qed.

Lemma local_field : forall b name value, In (b, (name, value)) mms_fields -> local value.
Proof.
  intros b name value E. cbn [mms_fields In] in E.
  repeat (destruct E as [E|E]; [inversion E; subst; clear E|]); try contradiction;
    first [ apply tidy_delivery | apply tidy_expiry | apply tidy_status
          | apply local_shown; first [ apply local_content_type | apply tidy_encoded | apply tidy_text
              | apply tidy_flag | apply tidy_date | apply tidy_sender | apply tidy_version | apply tidy_long
              | apply tidy_name
              | apply local_else; [apply tidy_name|first [apply tidy_token | apply local_gives]] ] ].
Qed.

(** * Headers *)

Lemma tidy_accept : tidy an_accept.
Proof.
  apply tidy_else; [apply tidy_constrained|].
  apply tidy_then; [apply tidy_length|]. intros _.
  apply tidy_then; [apply tidy_media|]. intros m. apply tidy_shown.
  apply (tidy_ext (fun l => match l with [] => ended
           | b :: r => if b =? 128 then and_then a_quality (fun _ =>
                           or_else (shown (fun _ => tt) a_parameter) (gives tt)) r
               else gives tt l end)).
  - intros [|b l]; [reflexivity|]. destruct (b =? 128) eqn:E.
    + apply Z.eqb_eq in E. now subst b.
    + unfold a_quality_and_parameter. destruct b as [|p|p]; try reflexivity.
      do 8 (destruct p as [p|p|]; try reflexivity); discriminate.
  - apply (tidy_case (fun b => b =? 128) (fun _ => and_then a_quality (fun _ =>
                           or_else (shown (fun _ => tt) a_parameter) (gives tt)))); [intros _|apply tidy_gives].
    apply tidy_then; [apply tidy_quality|]. intros _.
    apply tidy_else; [apply tidy_shown, tidy_parameter|apply tidy_gives].
Qed.
Lemma tidy_pragma : tidy a_pragma.
Proof.
  apply (tidy_ext (fun l => match l with [] => ended
           | b :: r => if b =? 128 then gives (HPragma (str "Cache-control") (PStr (str "No-cache"))) r
               else and_then a_value_length (fun _ =>
                    shown (fun x => HPragma (fst x) (snd x)) a_parameter) l end)).
  - intros [|b l]; [reflexivity|]. destruct (b =? 128) eqn:E.
    + apply Z.eqb_eq in E. now subst b.
    + unfold a_pragma. destruct b as [|p|p]; try reflexivity.
      do 8 (destruct p as [p|p|]; try reflexivity); discriminate.
  - apply (tidy_case (fun b => b =? 128) (fun _ => gives (HPragma (str "Cache-control") (PStr (str "No-cache")))));
      [intros _; apply tidy_gives|].
    apply tidy_then; [apply tidy_length|]. intros _. apply tidy_shown, tidy_parameter.
Qed.
Lemma tidy_named : tidy named_header.
Proof.
  apply tidy_then; [apply tidy_else; [apply tidy_token|apply tidy_text]|].
  intros name. apply tidy_shown, tidy_text.
Qed.
Lemma tidy_numbered_header : forall n, tidy (numbered_header n).
Proof.
  intros n. apply tidy_else; [|apply tidy_named].
  destruct (nth_error wsp_names (Z.to_nat n)) as [name|]; [|apply tidy_refused].
  apply tidy_shown. unfold wsp_value.
  destruct (n =? 0); [apply tidy_shown, tidy_accept|].
  destruct (n =? 31); [apply tidy_pragma|apply tidy_shown, tidy_text].
Qed.
Lemma tidy_wsp : tidy wsp_header.
Proof.
  apply (tidy_case (fun b => 128 <=? b) (fun b => numbered_header (b - 128)) named_header);
    [intros; apply tidy_numbered_header|apply tidy_named].
Qed.

Lemma local_header : local a_header.
Proof.
  intros [|b l]; [exact I|]. unfold a_header. cbn [app]. destruct (128 <=? b).
  - destruct (find (fun p => fst p =? b) mms_fields) as [[k [name value]]|] eqn:E.
    + apply find_some in E. destruct E as (E & _). pose proof (local_field _ _ _ E l) as H.
      destruct (value l) as [v r|[] r]; try exact I.
      * intros x. now rewrite (H x).
      * pose proof (proj1 tidy_wsp r) as W. destruct (wsp_header r) as [v r'|[] r']; try exact I;
          intros x; rewrite (H x); apply W.
    + exact (proj1 tidy_wsp (b :: l)).
  - destruct l as [|c l]; [exact I|]. cbn [app]. destruct (128 <=? c).
    + exact (proj1 (tidy_numbered_header b) (c :: l)).
    + exact (proj1 tidy_named (b :: c :: l)).
Qed.

(** Where the headers end for lack of octets, one octet may be left. *)
Lemma header_end : forall l rest, a_header l = Fails StopIteration rest ->
  rest = [] \/ exists b, b < 128 /\ rest = [b].
Proof.
  intros [|b l] rest E; [inversion E; now left|]. unfold a_header in E. destruct (128 <=? b) eqn:B.
  - left. destruct (find (fun p => fst p =? b) mms_fields) as [[k [name value]]|].
    + destruct (value l) as [v r|[] r]; try discriminate. exact (proj2 tidy_wsp _ _ E).
    + exact (proj2 tidy_wsp _ _ E).
  - destruct l as [|c l].
    + inversion E. right. exists b. split; [lia|reflexivity].
    + left. destruct (128 <=? c); [exact (proj2 (tidy_numbered_header b) _ _ E)|exact (proj2 tidy_named _ _ E)].
Qed.

Lemma items_tail : forall (stop : list Z -> bool) f d l d' r,
  items stop a_header f d l = Reads d' r ->
  (forall x f', (f <= f')%nat -> items stop a_header f' d (l ++ x) = Reads d' (r ++ x)) \/
  r = [] \/ exists b, b < 128 /\ r = [b].
Proof.
  intros stop f. induction f as [|f IH]; intros d l d' r E; cbn [items] in E;
    pose proof (local_header l) as H; destruct (a_header l) as [[k v] r1|e r1] eqn:Eh.
  - destruct (stop k) eqn:S; [|discriminate]. inversion E. subst. left. intros x f' _.
    destruct f'; cbn [items]; rewrite (H x), S; reflexivity.
  - destruct e; try discriminate. inversion E. subst. right. exact (header_end _ _ Eh).
  - destruct (stop k) eqn:S.
    + inversion E. subst. left. intros x f' _. destruct f'; cbn [items]; rewrite (H x), S; reflexivity.
    + destruct (IH _ _ _ _ E) as [G|G]; [left|right; exact G].
      intros x f' Lf. destruct f' as [|f']; [lia|]. cbn [items]. rewrite (H x), S. apply G. lia.
  - destruct e; try discriminate. inversion E. subst. right. exact (header_end _ _ Eh).
Qed.

Lemma local_part : local a_part.
Proof.
  apply local_then; [apply tidy_uintvar|]. intros n.
  apply local_then; [apply tidy_uintvar|]. intros k.
  apply local_then; [apply tidy_next|]. intros l.
  apply local_then; [apply local_within|]. intros x. apply local_shown, tidy_next.
Qed.
Lemma local_parts : forall n, local (some_parts n).
Proof.
  induction n as [|n IH]; [apply local_gives|].
  apply local_then; [apply local_part|]. intros p. now apply local_shown.
Qed.

Lemma message_tail : forall d m rest x, a_message d = Reads m rest -> m_parts m <> [] ->
  a_message (d ++ x) = Reads m (rest ++ x).
Proof.
  intros d m rest x E N. unfold a_message, and_then, all_items in *.
  destruct (items _ a_header (length d) _ d) as [hs r|e r] eqn:Ei; [|discriminate].
  assert (B : exists ps, a_body r = Reads ps rest /\ m = Message hs [] ps 176 220).
  { unfold shown, and_then, gives in E. destruct (a_body r) as [ps r2|]; [|discriminate].
    inversion E. subst. now exists ps. }
  destruct B as (ps & B & ->). cbn [m_parts] in N. clear E.
  apply items_tail in Ei. destruct Ei as [G | G].
  - rewrite (G x (length (d ++ x))) by (rewrite app_length; lia).
    assert (B' : a_body (r ++ x) = Reads ps (rest ++ x)).
    { unfold a_body in *. pose proof (proj1 tidy_uintvar r) as H.
      destruct (a_uintvar r) as [n r1|e r1]; [|inversion B; subst; contradiction].
      rewrite (H x). destruct (2 ^ 63 <=? n); [discriminate|].
      exact (local_reads _ _ _ _ x (local_parts _) B). }
    unfold shown, and_then, gives. now rewrite B'.
  - exfalso. destruct G as [-> | (b & Hb & ->)]; unfold a_body in B.
    + inversion B. subst. contradiction.
    + unfold a_uintvar in B. cbn [up_to] in B. replace (b <? 128) with true in B by lia.
      destruct (2 ^ 63 <=? _); [discriminate|].
      destruct (Z.to_nat _) as [|n]; [inversion B; subst; contradiction|].
      discriminate.
Qed.
