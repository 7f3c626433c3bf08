(** C59, settled: when the length of a part and its data disagree. *)
From Coq Require Import Lia.
From Verif Require Import Py Iter Tables WspDec WspEnc Message MmsEnc WspClaims MmsClaims
  MessageClaims SpecAttach SpecHistory PyFacts MessageFacts HistoryFacts PropHistory.
Open Scope Z_scope.

(** The file the part was last given was read when it held [c], for the first time since,
    and by now it is gone or has another size. *)
Definition out_of_date (xs : list act) (w : world) : Prop :=
  exists a f b1 b2 c,
    xs = a ++ Does (Load f) :: b1 ++ Does ReadData :: b2 /\
    w_file (files_after a w) f <> None /\
    none gives_data (files_after (a ++ [Does (Load f)]) w) (b1 ++ Does ReadData :: b2) /\
    none (reads_file f) (files_after (a ++ [Does (Load f)]) w) b1 /\
    w_file (files_after (a ++ Does (Load f) :: b1) w) f = Some c /\
    (forall d, w_file (files_after xs w) f = Some d -> zlen d <> zlen c).

Lemma split_last : forall P w, (forall v x, {P v x} + {~ P v x}) -> forall xs,
  none P w xs \/ exists a x b, xs = a ++ x :: b /\ P (files_after a w) x /\
                               none P (files_after (a ++ [x]) w) b.
Proof.
  intros P w D xs. induction xs as [|y xs IH] using rev_ind.
  - left. intros a x b E. destruct a; discriminate.
  - destruct (D (files_after xs w) y) as [H|H].
    + right. exists xs, y, []. split; [reflexivity|]. split; [exact H|].
      intros a x b E. destruct a; discriminate.
    + assert (G : forall (v : world) (l : list act), none P v l -> ~ P (files_after l v) y -> none P v (l ++ [y])).
      { intros v l N Ny a x b E. destruct b as [|z b _] using rev_ind.
        - apply app_inj_tail in E. destruct E as (-> & ->). exact Ny.
        - rewrite app_comm_cons, app_assoc in E. apply app_inj_tail in E. destruct E as (E & _).
          exact (N a x b E). }
      destruct IH as [N | (a & x & b & -> & Hx & N)].
      * left. exact (G w xs N H).
      * right. exists a, x, (b ++ [y]). split; [now rewrite <- app_assoc|]. split; [exact Hx|].
        apply G; [exact N|]. rewrite <- files_app, <- app_assoc. exact H.
Qed.

Lemma split_first : forall P w, (forall v x, {P v x} + {~ P v x}) -> forall xs,
  none P w xs \/ exists a x b, xs = a ++ x :: b /\ P (files_after a w) x /\ none P w a.
Proof.
  intros P w D xs. revert w. induction xs as [|y xs IH]; intros w.
  - left. intros a x b E. destruct a; discriminate.
  - destruct (D w y) as [H|H].
    + right. exists [], y, xs. split; [reflexivity|]. split; [exact H|].
      intros a x b E. destruct a; discriminate.
    + assert (G : forall l, none P (files_after [y] w) l -> none P w (y :: l)).
      { intros l N a x b E. destruct a as [|z a].
        - inversion E. subst. exact H.
        - inversion E. subst. change (z :: a) with ([z] ++ a). rewrite files_app.
          exact (N a x b eq_refl). }
      destruct (IH (files_after [y] w)) as [N | (a & x & b & -> & Hx & N)].
      * left. exact (G xs N).
      * right. exists (y :: a), x, b. split; [reflexivity|]. split; [|exact (G a N)].
        change (y :: a) with ([y] ++ a). rewrite files_app. exact Hx.
Qed.

Lemma gives_dec : forall v x, {gives_data v x} + {~ gives_data v x}.
Proof.
  intros v [[]|]; try (left; constructor; fail); try (right; intros H; inversion H; fail).
  rename f into filename.
  destruct (w_file v filename) eqn:E.
  - left. constructor. congruence.
  - right. intros H. inversion H. congruence.
Qed.
Lemma reads_dec : forall f v x, {reads_file f v x} + {~ reads_file f v x}.
Proof.
  intros f v x. unfold reads_file. destruct (act_read x) as [->|N].
  - destruct (w_file v f) eqn:E; [left; split; congruence|right; intros []; congruence].
  - right. intros []. contradiction.
Qed.

Lemma none_tail : forall P w a b, none P w (a ++ b) -> none P (files_after a w) b.
Proof.
  intros P w a b N p x q E. rewrite <- files_app. apply (N (a ++ p) x q). now rewrite E, app_assoc.
Qed.

(** C59, settled: after every history the length is the number of octets of the data, unless
    the data is that of a file which has changed its size, or is gone, since it was read. *)
Theorem C59_exact : forall xs w,
  length_agrees (files_after xs w) (snd (after xs w)) <-> ~ out_of_date xs w.
Proof.
  intros xs w. unfold length_agrees.
  destruct (C118_data w) as (D1 & D2 & D3 & D4). destruct (C118_length w) as (L1 & L2 & L3).
  split.
  - intros E (a & f & b1 & b2 & c & -> & F & N & R & C & S).
    rewrite (D3 a f b1 b2 c F N R C) in E.
    destruct (L2 a f (b1 ++ Does ReadData :: b2) []) as (_ & L); [exact F|exact N|].
    destruct (w_file (files_after (a ++ Does (Load f) :: b1 ++ Does ReadData :: b2) w) f) as [d|] eqn:Ed.
    + destruct (L2 a f (b1 ++ Does ReadData :: b2) d F N) as (L' & _).
      rewrite (L' Ed) in E. cbn in E. inversion E. exact (S d eq_refl H0).
    + rewrite (L eq_refl) in E. discriminate.
  - intros S. destruct (split_last gives_data w gives_dec xs) as [N | (a & x & b & -> & G & N)].
    + rewrite (L3 xs N), (D4 xs N). reflexivity.
    + assert (Given : forall d, (exists m ps, x = Does (SetData d m ps)) \/ x = Does (SetText d) ->
        len_of (files_after (a ++ x :: b) w) (snd (after (a ++ x :: b) w)) =
        (d <- data_of (files_after (a ++ x :: b) w) (snd (after (a ++ x :: b) w)) ;; Ok (zlen d))).
      { intros d X. rewrite (L1 a x b d X N), (D1 a x b d X N). reflexivity. }
      inversion G as [d m ps Ex|t Ex|f F Ex]; subst x.
      * apply (Given d). left. now exists m, ps.
      * apply (Given t). now right.
      * clear Given G.
        destruct (split_first (reads_file f) (files_after (a ++ [Does (Load f)]) w) (reads_dec f) b)
          as [R | (b1 & x & b2 & -> & (-> & H) & R)].
        -- destruct (w_file (files_after (a ++ Does (Load f) :: b) w) f) as [d|] eqn:Ed.
           ++ destruct (L2 a f b d F N) as (L & _), (D2 a f b d F N R) as (D & _).
              rewrite (L Ed), (D Ed). reflexivity.
           ++ destruct (L2 a f b [] F N) as (_ & L), (D2 a f b [] F N R) as (_ & D).
              rewrite (L Ed), (D Ed). reflexivity.
        -- assert (H' : w_file (files_after (a ++ Does (Load f) :: b1) w) f <> None).
           { change (a ++ Does (Load f) :: b1) with (a ++ [Does (Load f)] ++ b1).
             rewrite app_assoc, files_app. exact H. }
           destruct (w_file (files_after (a ++ Does (Load f) :: b1) w) f) as [c|] eqn:C; [|congruence].
           rewrite (D3 a f b1 b2 c F N R C).
           destruct (w_file (files_after (a ++ Does (Load f) :: b1 ++ Does ReadData :: b2) w) f)
             as [d|] eqn:Ed.
           ++ destruct (L2 a f (b1 ++ Does ReadData :: b2) d F N) as (L & _).
              rewrite (L Ed). cbn. f_equal.
              destruct (Z.eq_dec (zlen d) (zlen c)) as [E|E]; [exact E|].
              exfalso. apply S. exists a, f, b1, b2, c. repeat split; auto.
              intros d' Ed'. rewrite Ed in Ed'. inversion Ed'. subst. exact E.
           ++ exfalso. apply S. exists a, f, b1, b2, c. repeat split; auto.
              intros d' Ed'. rewrite Ed in Ed'. discriminate.
Qed.
Print Assumptions C59_exact.

(** * Examples *)

(** Read, then rewritten with another size. *)
Example ex_out_of_date : out_of_date ex_acts ex_files.
Proof.
  exists [Does (SetText [65]); Does (Load (str "/none"))], (str "/a/b.gif"),
    [Does (SetMedia (str "image/png")); SetHeader (str "Content-ID") (HStr (str "x"))],
    [Does (WriteFile (str "/a/b.gif") (Some [3; 4; 5]))], [1; 2].
  split; [reflexivity|]. split; [discriminate|]. split; [|split; [|split]].
  - intros a x b E H.
    do 4 (destruct a as [|? a]; cbn in E; injection E as ? E; [subst; inversion H|]).
    destruct a; discriminate.
  - intros a x b E (H & _). subst x.
    do 2 (destruct a as [|? a]; cbn in E; injection E as ? E; [discriminate|]).
    destruct a; discriminate.
  - reflexivity.
  - intros d E. vm_compute in E. inversion E. subst. vm_compute. discriminate.
Qed.
(** The same without the writing is up to date. *)
Example ex_up_to_date : ~ out_of_date (removelast ex_acts) ex_files.
Proof. apply C59_exact. vm_compute. reflexivity. Qed.
