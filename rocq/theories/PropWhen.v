(** Exact forms of claims that hold in part only: when precisely they hold (C58, C62,
    C68, C70, C76). *)
From Coq Require Import Lia ZifyBool ZifyNat.
From Verif Require Import Py PyFacts SpecGsm SpecPack SpecAddress SpecTime SpecSubmit SpecDeliver
  Gsm GsmFacts Udh UdhFacts Iter Tables WspDec WspEnc Message MmsEnc MmsDec SpecWsp WspClaims
  MmsClaims IterFacts WspFacts MmsTotal ContentFacts HeaderFacts MsgHeaderFacts BodyFacts
  SpecMms GrammarClaims GrammarFacts PropMessage.
Open Scope Z_scope.

(** * C70: the length reported by [decode] *)

(** An escape that is followed by another octet. *)
Definition escape_used (l : list Z) : Prop := exists a c b, l = a ++ [esc; c] ++ b.

Lemma escape_used_cons c l : c <> esc -> escape_used (c :: l) <-> escape_used l.
Proof.
  intros N. split.
  - intros (a & x & b & E). destruct a as [|y a]; cbn in E.
    + injection E as E _. congruence.
    + injection E as _ E. exists a, x, b. exact E.
  - intros (a & x & b & ->). exists (c :: a), x, b. reflexivity.
Qed.

Lemma reads_shorter : forall l us, reads None l us -> zlen us <= zlen l.
Proof. intros l us H. induction H; rewrite ?zlen_cons in *; try lia; discriminate. Qed.

(** Decoding strictly, the length reported with the text is the number of octets
    consumed, which is all of them, exactly when no escape sequence was read. *)
Theorem C70_decode_exact : forall l us n, decode l Strict = Ok (us, n) ->
  (n = zlen l <-> ~ escape_used l).
Proof.
  intros l us n H.
  assert (En : n = zlen us).
  { unfold decode in H. destruct (decode_loop Strict l); cbn [bind] in H; congruence. }
  subst n. apply (decode_reads Strict) in H. change (bad_of Strict) with (@None (list Z)) in H.
  induction H as [|g u b us Hn Hg H IH|g u b us Hi H IH|g b us Hi H IH| |g x b us Hg Hx H IH].
  - split; [|reflexivity]. intros _ (a & c & b & E). destruct a; discriminate.
  - rewrite escape_used_cons, <- IH, !zlen_cons by exact Hg. lia.
  - apply reads_shorter in H. rewrite !zlen_cons. split; [lia|]. intros N. exfalso. apply N.
    exists [], g, b. reflexivity.
  - apply reads_shorter in H. rewrite !zlen_cons. split; [lia|]. intros N. exfalso. apply N.
    exists [], g, b. reflexivity.
  - split; [|reflexivity]. intros _ (a & c & b & E). destruct a as [|y [|z a]]; discriminate.
  - discriminate.
Qed.
Print Assumptions C70_decode_exact.
Example C70_decode_case : decode [0x41; 0x1B] Strict = Ok ([0x41; 0xA0], 2) /\
  decode [0x1B; 0x65; 0x41] Strict = Ok ([0x20AC; 0x41], 2).
Proof. split; reflexivity. Qed.

(** * C68: the width of the ports *)

Lemma udh_element_ports i d u u' : udh_element i d u = Ok u' ->
  (forall p, h_ports u = Some p -> p_eight p = false) ->
  forall p, h_ports u' = Some p -> p_eight p = false.
Proof.
  unfold udh_element. cbn zeta. intros H Hu.
  assert (X : forall v, (if i =? 0 then
      match d with
      | [ref; cnt; seq] => Ok (Udh (Some (Concat ref cnt seq true)) (h_ports u) (d_set Z.eqb i d (h_headers u)))
      | _ => Err ValueError end
      else Ok (Udh (h_concat u) (h_ports u) (d_set Z.eqb i d (h_headers u)))) = Ok v ->
    h_ports v = h_ports u).
  { intros v. destruct (i =? 0); [|intros [= <-]; reflexivity].
    destruct d as [|a [|b [|c [|]]]]; try discriminate. intros [= <-]. reflexivity. }
  cbn [h_concat h_ports h_headers] in H.
  destruct (if i =? 0 then _ else _) as [v|e] eqn:E; [|discriminate]. specialize (X v eq_refl).
  cbn [bind] in H.
  repeat match type of H with
    | (if ?b then _ else _) = _ => destruct b
    | bind ?m _ = _ => destruct m; cbn [bind] in H; [|discriminate]
    end; try (injection H as <-); cbn [h_ports]; try (rewrite X; exact Hu);
    try (intros p [= <-]; reflexivity).
  destruct d as [|a [|b [|]]]; try discriminate. injection H as <-. cbn [h_ports].
  intros p [= <-]. reflexivity.
Qed.

Lemma udh_loop_ports fuel : forall data u u', udh_loop fuel data u = Ok u' ->
  (forall p, h_ports u = Some p -> p_eight p = false) ->
  forall p, h_ports u' = Some p -> p_eight p = false.
Proof.
  induction fuel as [|fuel IH]; intros data u u' H Hu.
  - destruct data; cbn in H; [injection H as <-; exact Hu|discriminate].
  - destruct data as [|i data]; cbn [udh_loop pop0 bind] in H; [injection H as <-; exact Hu|].
    destruct data as [|n data]; cbn [pop0 bind] in H; [discriminate|].
    destruct (udh_element i (py_to data n) u) as [v|] eqn:E; cbn [bind] in H; [|discriminate].
    exact (IH _ _ _ H (udh_element_ports _ _ _ _ E Hu)).
Qed.

(** Whatever octets a header is read from, its ports are flagged as 16-bit ones. *)
Theorem C68_never_eight : forall data u p, from_bytes data = Ok u -> h_ports u = Some p ->
  p_eight p = false.
Proof.
  intros data u p H. apply (udh_loop_ports _ _ _ _ H). discriminate.
Qed.
Print Assumptions C68_never_eight.

(** The element the ports of a header come from: the last port element. *)
Definition port_element (els : list element) : option element :=
  last_such (fun e => (fst e =? 4) || (fst e =? 5)) els.

(** So the flag tells the width of the ports exactly when they came from an element
    5; the port numbers are right in both cases. *)
Theorem C68_exact : forall els i d, Forall element_ok els -> port_element els = Some (i, d) ->
  exists u p, from_bytes (serial els) = Ok u /\ h_ports u = Some p /\
    port_addresses els = Some (p_dest p, p_orig p) /\
    (p_eight p = (i =? 4) <-> i = 5).
Proof.
  intros els i d Hok Hp. destruct (from_bytes_serial els Hok) as (u & E & _ & Hv & _).
  exists u. unfold ports_view in Hv. unfold port_addresses in Hv. unfold port_element in Hp.
  rewrite Hp in Hv.
  assert (Hi : In (i, d) els /\ (i = 4 \/ i = 5)).
  { unfold last_such in Hp. apply find_some in Hp. destruct Hp as (Hin & Hb). split.
    - now apply in_rev.
    - cbn [fst] in Hb. lia. }
  destruct Hi as (Hin & Hi). rewrite Forall_forall in Hok. specialize (Hok _ Hin).
  destruct Hok as (_ & _ & _ & _ & _ & O4 & O5).
  destruct (h_ports u) as [p|] eqn:Ep.
  2:{ exfalso. cbn [option_map] in Hv. destruct Hi as [->| ->].
      - specialize (O4 eq_refl). destruct d as [|a [|b [|]]]; try discriminate.
      - specialize (O5 eq_refl). destruct d as [|a [|b [|c [|e [|]]]]]; try discriminate. }
  exists p. split; [exact E|]. split; [reflexivity|].
  split; [unfold port_addresses; rewrite Hp, <- Hv; reflexivity|].
  rewrite (C68_never_eight _ _ _ E Ep). lia.
Qed.
Print Assumptions C68_exact.
Example C68_exact_case :
  port_element [(4, [1; 2]); (5, [0; 80; 0; 81]); (0, [1; 2; 1])] = Some (5, [0; 80; 0; 81]) /\
  match from_bytes (serial [(4, [1; 2]); (5, [0; 80; 0; 81]); (0, [1; 2; 1])]) with
  | Ok u => h_ports u = Some (Ports 80 81 false) | _ => False end.
Proof. split; reflexivity. Qed.

(** * C62: data_parts *)

(** [data_parts] gives a list exactly for the messages without slides, and it is the
    list of the attached parts. *)
Theorem C62_exact : forall render w m l, data_parts render w m = Ok l <->
  m_pages m = [] /\ l = map LPart (m_parts m).
Proof.
  intros render w m l. unfold data_parts. destruct (m_pages m) as [|g gs].
  - split; [intros [= <-]; auto|]. intros (_ & ->). reflexivity.
  - split; [|intros (? & _); discriminate]. destruct (smil render w m); discriminate.
Qed.
Print Assumptions C62_exact.
Example C62_exact_case :
  let w := World (fun _ => None) (fun _ => None) (fun d => d) in
  let p := set_text (str "hi") new_part in
  data_parts (fun _ => []) w (add_data_part p new_message) = Ok [LPart p] /\
  (forall l, data_parts (fun _ => []) w
     (Message default_headers [new_page] [p] 176 220) <> Ok l).
Proof.
  split; [reflexivity|]. intros l. apply C62_slides_refuted. discriminate.
Qed.

(** * C76: several recipients *)

Definition recipient_fields : list (list Z) := [str "To"; str "Cc"; str "Bcc"].

Lemma recipient_text k v l : In k recipient_fields -> Read_field k v l -> exists s, v = Text s.
Proof.
  intros Hk (H & _).
  destruct H as [name c s l Hin H|name c s l Hin H|t l H|name c b Hin|name c t l n vl Hin H Hv En
    |name c x l n vl Hin H Hv En|s l n vl H Hv En|vl Hv|name c table b s Hin Hb|s l H|s l H|n l H
    |name s l t Ht Hn H]; eauto;
    try (exfalso; vm_compute in Hk; intuition discriminate);
    exfalso; unfold recipient_fields in Hk; cbn [In] in Hin, Hk;
    repeat (destruct Hin as [Hin|Hin]; [injection Hin as <- <-;
      repeat (destruct Hk as [Hk|Hk]; [vm_compute in Hk; discriminate|]); destruct Hk|]);
    destruct Hin.
Qed.

Lemma sequence_in {V} (P : list Z -> V -> list Z -> Prop) vs l k v :
  Sequence P vs l -> In (k, v) vs -> exists x, P k v x.
Proof.
  intros H. induction H as [|k' v' l' vs r H HS IH]; [intros []|].
  intros [E|E]; [injection E as -> ->; eauto|auto].
Qed.

Lemma last_value_in {V} k (vs : list (list Z * V)) v : last_value k vs = Some v -> In (k, v) vs.
Proof.
  induction vs as [|[k' v'] vs IH]; cbn [last_value]; [discriminate|].
  destruct (last_value k vs) as [x|].
  - intros [= ->]. right. now apply IH.
  - destruct (list_eq_dec Z.eq_dec k k') as [->|]; [|discriminate]. intros [= ->]. left. reflexivity.
Qed.

Lemma last_value_some {V} k (vs : list (list Z * V)) v : In (k, v) vs ->
  exists v', last_value k vs = Some v'.
Proof.
  induction vs as [|[k' v'] vs IH]; [intros []|]. cbn [last_value].
  intros [E|E].
  - injection E as -> ->. destruct (last_value k vs) as [x|]; eauto.
    destruct (list_eq_dec Z.eq_dec k k); [eauto|congruence].
  - destruct (IH E) as (x & ->). eauto.
Qed.

(** All recipients named in the To, Cc and Bcc fields of a message can be read from
    the decoded message exactly when none of these fields is repeated with another
    recipient. *)
Definition recipients_readable (fs : list (list Z * value)) (m : message) : Prop :=
  forall k s, In k recipient_fields -> In (k, Text s) fs -> h_get k (m_headers m) = Some (HStr s).
Definition one_recipient_each (fs : list (list Z * value)) : Prop :=
  forall k s s', In k recipient_fields -> In (k, Text s) fs -> In (k, Text s') fs -> s = s'.

Lemma recipients_exact fs l m : Sequence Read_field fs l ->
  shows_dict shows (fun k => d_get leqb k (m_headers new_message)) fs (m_headers m) ->
  recipients_readable fs m <-> one_recipient_each fs.
Proof.
  intros HS Hd. split.
  - intros H k s s' Hk H1 H2. pose proof (H _ _ Hk H1) as E1. pose proof (H _ _ Hk H2) as E2.
    rewrite E1 in E2. injection E2 as E2. exact E2.
  - intros H k s Hk Hin. specialize (Hd k).
    destruct (last_value_some _ _ _ Hin) as (v & Hv). rewrite Hv in Hd.
    destruct Hd as (h & Eh & Hh). apply last_value_in in Hv.
    destruct (sequence_in _ _ _ _ _ HS Hv) as (x & Hx).
    destruct (recipient_text _ _ _ Hk Hx) as (s' & ->). cbn [shows] in Hh. subst h.
    rewrite (H _ _ _ Hk Hin Hv). exact Eh.
Qed.

Theorem C76_exact : forall fs l, Sequence Read_field fs l ->
  exists m, decode_data l = Ok m /\ (recipients_readable fs m <-> one_recipient_each fs).
Proof.
  intros fs l H. destruct (bare_read fs l H) as (m & E & Hd & _). exists m. split; [exact E|].
  exact (recipients_exact fs l m H Hd).
Qed.
Print Assumptions C76_exact.

Theorem C76_message_exact : forall fs es l, Read_message fs es l -> n_octets l <= maxint ->
  exists m, decode_data l = Ok m /\ (recipients_readable fs m <-> one_recipient_each fs).
Proof.
  intros fs es l H Hl. destruct (message_read fs es l H Hl) as (m & E & Hd & _).
  exists m. split; [exact E|].
  destruct H as [fs fl media ps ct n nl es el HS HC _ _ _].
  assert (X : forall k s, In k recipient_fields ->
    In (k, Text s) (fs ++ [(str "Content-Type", Media_type media ps)]) <-> In (k, Text s) fs).
  { intros k s Hk. rewrite in_app_iff. split; [|auto]. intros [A|[A|[]]]; [exact A|]. discriminate A. }
  assert (L : forall k, In k recipient_fields ->
    last_value k (fs ++ [(str "Content-Type", Media_type media ps)]) = last_value k fs).
  { intros k Hk. clear - Hk. induction fs as [|[k' v'] fs IH]; cbn [app last_value].
    - destruct (list_eq_dec Z.eq_dec k (str "Content-Type")) as [->|]; [|reflexivity].
      exfalso. vm_compute in Hk. intuition discriminate.
    - rewrite IH. reflexivity. }
  split.
  - intros H k s s' Hk H1 H2. pose proof (H _ _ Hk H1) as E1. pose proof (H _ _ Hk H2) as E2.
    rewrite E1 in E2. injection E2 as E2. exact E2.
  - intros H k s Hk Hin. specialize (Hd k). rewrite (L k Hk) in Hd.
    destruct (last_value_some _ _ _ (proj1 (X k s Hk) Hin)) as (v & Hv). rewrite Hv in Hd.
    destruct Hd as (h & Eh & Hh). apply last_value_in in Hv.
    destruct (sequence_in _ _ _ _ _ HS Hv) as (x & Hx).
    destruct (recipient_text _ _ _ Hk Hx) as (s' & ->). cbn [shows] in Hh. subst h.
    rewrite (H _ _ _ Hk Hin (proj2 (X k s' Hk) Hv)). exact Eh.
Qed.
Print Assumptions C76_message_exact.

Lemma read_to c name s : In (name, c) [(str "Bcc", 129); (str "Cc", 130); (str "To", 151)] ->
  text s -> s <> [] -> ~ starts_with (fun c => 128 <= c) s ->
  Read_field name (Text s) (c :: s ++ [0]).
Proof.
  intros Hin Hs Hn Ha. split.
  { apply f_encoded; [cbn in *; tauto|]. apply es_plain, ts_plain; assumption. }
  intros X. remember (c :: s ++ [0]) as l eqn:El. remember (Text s) as v eqn:Ev.
  destruct X as [nm v c' Hc|nm v n vl Hv|nm v M HM|nm t l Ht _|nm v n vl k Hv Hk];
    try discriminate Ev.
  - injection El as _ El. destruct s as [|c0 s]; [congruence|]. destruct s; discriminate El.
  - apply (f_equal (hd 0)) in El. cbn [hd] in El. subst c. cbn in Hin. intuition congruence.
  - apply (f_equal (hd 0)) in El. cbn [hd] in El. subst c. cbn in Hin. intuition congruence.
  - apply (f_equal (hd 0)) in El. cbn [hd] in El. subst c. cbn in Hin. intuition congruence.
Qed.

(** Three recipients, one in each field; and a fourth one. *)
Example C76_exact_case : exists l l' m m',
  Sequence Read_field [(str "To", Text (str "+1")); (str "Cc", Text (str "+2"));
                       (str "Bcc", Text (str "+3"))] l /\
  decode_data l = Ok m /\ h_get (str "To") (m_headers m) = Some (HStr (str "+1")) /\
  Sequence Read_field [(str "To", Text (str "+1")); (str "Cc", Text (str "+2"));
                       (str "Bcc", Text (str "+3")); (str "To", Text (str "+4"))] l' /\
  decode_data l' = Ok m' /\ h_get (str "To") (m_headers m') = Some (HStr (str "+4")).
Proof.
  assert (T : forall d, In d [49; 50; 51; 52] -> text [43; d] /\ [43; d] <> [] /\
            ~ starts_with (fun c => 128 <= c) [43; d]).
  { intros d Hd. split; [|split; [discriminate|]].
    - repeat constructor; cbn in Hd; lia.
    - cbn. lia. }
  assert (F : forall c name d, In (name, c) [(str "Bcc", 129); (str "Cc", 130); (str "To", 151)] ->
            In d [49; 50; 51; 52] -> Read_field name (Text [43; d]) (c :: [43; d] ++ [0])).
  { intros c name d Hc Hd. destruct (T d Hd) as (A & B & C). now apply read_to. }
  exists ((151 :: str "+1" ++ [0]) ++ (130 :: str "+2" ++ [0]) ++ (129 :: str "+3" ++ [0]) ++ []),
    ((151 :: str "+1" ++ [0]) ++ (130 :: str "+2" ++ [0]) ++ (129 :: str "+3" ++ [0]) ++
     (151 :: str "+4" ++ [0]) ++ []).
  eexists. eexists.
  split; [repeat apply seq_cons; try constructor; apply F; cbn; tauto|].
  split; [vm_compute; reflexivity|]. split; [vm_compute; reflexivity|].
  split; [repeat apply seq_cons; try constructor; apply F; cbn; tauto|].
  split; vm_compute; reflexivity.
Qed.

(** * C58: where headers come from *)

(** Decoding a field of [l] gives [k] with the value [v] and leaves [l']. *)
Definition one_field (l k : list Z) (v : hval) (l' : list Z) : Prop :=
  exists piece it it', l = piece ++ l' /\ piece <> [] /\ remaining it = l /\
    decode_header it = (Ok (k, v), it') /\ remaining it' = l'.

(** No further field can be read from [l]: the octets end before it does. *)
Definition no_field (l : list Z) : Prop :=
  exists it, remaining it = l /\ fst (decode_header it) = Err StopIteration.

(** [fields_read l fs rest]: the fields [fs] follow each other at the beginning of
    [l], up to and including the first Content-Type, or until no further field can
    be read. *)
Inductive fields_read : list Z -> list (list Z * hval) -> list Z -> Prop :=
| fr_end : forall l, no_field l -> fields_read l [] l
| fr_content : forall l v l', one_field l (str "Content-Type") v l' ->
    fields_read l [(str "Content-Type", v)] l'
| fr_next : forall l k v l' fs rest, one_field l k v l' -> k <> str "Content-Type" ->
    fields_read l' fs rest -> fields_read l ((k, v) :: fs) rest.

Lemma header_loop_fields : forall fuel d it l p d' it2, R it l p ->
  header_loop fuel d it = (Ok d', it2) ->
  exists fs rest, fields_read l fs rest /\
    forall k, h_get k d' = match last_value k fs with Some v => Some v | None => h_get k d end.
Proof.
  induction fuel as [|f IH]; intros d it l p d' it2 HR E; [discriminate|].
  cbn [header_loop] in E.
  destruct (safe_decode_header l p it HR) as (r & it' & l' & p' & Eh & HR' & pre & El & Hk).
  rewrite Eh in E. destruct r as [[h x]|e].
  - assert (H1 : one_field l h x l').
    { exists pre, it, it'. split; [exact El|]. split; [intros ->; cbn in Hk; lia|].
      rewrite (remaining_R _ _ _ HR), (remaining_R _ _ _ HR'). auto. }
    destruct (leqb h (str "Content-Type")) eqn:Ect.
    + apply leqb_eq in Ect. subst h. assert (d' = d_set leqb (str "Content-Type") x d) by congruence.
      subst d'. exists [(str "Content-Type", x)], l'. split; [now apply fr_content|].
      intros k. rewrite h_get_set. cbn [last_value].
      destruct (list_eq_dec Z.eq_dec k (str "Content-Type")) as [->|N].
      * now rewrite leqb_refl.
      * destruct (leqb k (str "Content-Type")) eqn:E'; [|reflexivity]. apply leqb_eq in E'. congruence.
    + destruct (IH _ _ _ _ _ _ HR' E) as (fs & rest & HF & Hd).
      exists ((h, x) :: fs), rest. split.
      { eapply fr_next; [exact H1| |exact HF]. intros ->. rewrite leqb_refl in Ect. discriminate. }
      intros k. rewrite Hd, h_get_set. cbn [last_value].
      destruct (last_value k fs); [reflexivity|].
      destruct (list_eq_dec Z.eq_dec k h) as [->|N].
      * now rewrite leqb_refl.
      * destruct (leqb k h) eqn:E'; [|reflexivity]. apply leqb_eq in E'. congruence.
  - destruct e; try discriminate. assert (d' = d) by congruence. subst d'.
    exists [], l. split; [|reflexivity]. apply fr_end. exists it.
    split; [exact (remaining_R _ _ _ HR)|]. now rewrite Eh.
Qed.

(** The headers of every decoded message: what the fields at the beginning of the
    octets say, the last one of a name counting, and under a name without field what
    every new message says. *)
Theorem C58_exact : forall data m, decode_data data = Ok m ->
  exists fs rest, fields_read data fs rest /\
    forall k, h_get k (m_headers m) =
      match last_value k fs with
      | Some v => Some v
      | None => h_get k [(str "Message-Type", HStr (str "m-send-req"));
                         (str "Transaction-Id", HStr (str "1234"));
                         (str "MMS-Version", HStr (str "1.0"));
                         (str "Content-Type", HType (str "application/vnd.wap.multipart.mixed") [])]
      end.
Proof.
  intros data m E. unfold decode_data, st_bind, decode_message_header, fuelled, st_ret in E.
  destruct (header_loop _ default_headers (new_iter data)) as [[d|e] it] eqn:Eh; [|discriminate].
  destruct (decode_message_body it) as [[ps|e] it']; [|discriminate].
  cbn [fst] in E. injection E as <-.
  exact (header_loop_fields _ _ _ _ _ _ _ (R_new data) Eh).
Qed.
Print Assumptions C58_exact.

(** So every header of a decoded message was in the octets exactly when the octets
    begin with fields among which are the four every new message has. *)
Theorem C58_present_exact : forall data m, decode_data data = Ok m ->
  exists fs rest, fields_read data fs rest /\
    ((forall k v, h_get k (m_headers m) = Some v -> In (k, v) fs) <->
     (forall k, In k [str "Message-Type"; str "Transaction-Id"; str "MMS-Version"; str "Content-Type"] ->
        exists v, In (k, v) fs)).
Proof.
  intros data m E. destruct (C58_exact data m E) as (fs & rest & HF & Hd).
  exists fs, rest. split; [exact HF|]. split.
  - intros H k Hk.
    assert (exists v, h_get k (m_headers m) = Some v) as (v & Ev); [|eauto].
    rewrite Hd. destruct (last_value k fs); [eauto|].
    cbn [In] in Hk. repeat (destruct Hk as [<-|Hk]; [eexists; vm_compute; reflexivity|]). destruct Hk.
  - intros H k v Ev. rewrite Hd in Ev. destruct (last_value k fs) as [x|] eqn:El.
    + injection Ev as <-. now apply last_value_in.
    + exfalso. assert (Hk : In k [str "Message-Type"; str "Transaction-Id"; str "MMS-Version"; str "Content-Type"]).
      { apply d_get_In in Ev; [|intros; apply leqb_eq|].
        - apply (in_map fst) in Ev. exact Ev.
        - apply (nodupb_NoDup leqb); [apply leqb_eq|vm_compute; reflexivity]. }
      destruct (H k Hk) as (x & Hx). destruct (last_value_some _ _ _ Hx) as (y & Ey). congruence.
Qed.
Print Assumptions C58_present_exact.
Example C58_exact_case : exists m, decode_data [140; 132; 151; 97; 0; 151; 98; 0] = Ok m /\
  h_get (str "Message-Type") (m_headers m) = Some (HStr (str "m-retrieve-conf")) /\
  h_get (str "To") (m_headers m) = Some (HStr (str "b")) /\
  h_get (str "MMS-Version") (m_headers m) = Some (HStr (str "1.0")).
Proof. eexists. split; [|split; [|split]]; vm_compute; reflexivity. Qed.
