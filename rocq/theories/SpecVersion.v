(** What is sent for a version string (C47): the numbers Python's [int()] reads, and
    the octets the code sends for every string.  Nothing here refers to the model. *)
From Coq Require Import ZArith List.
Import ListNotations.
From Verif Require Import SpecWsp.
Open Scope Z_scope.

(** The characters [int()] skips. *)
Definition blank (c : Z) : Prop := c = 32 \/ 9 <= c <= 13.
Definition digit (c : Z) : Prop := 48 <= c <= 57.

(** The number written by a row of decimal digits. *)
Definition decimal (s : list Z) : Z := fold_left (fun n c => n * 10 + (c - 48)) s 0.

(** The strings [int()] of Python 2 accepts, and their values: blanks, a sign or
    none, blanks again, digits, blanks. *)
Inductive Number : Z -> list Z -> Prop :=
| number : forall sign k before between ds after,
    In (sign, k) [([], 1); ([43], 1); ([45], -1)] ->
    Forall blank before -> Forall blank between -> Forall blank after ->
    ds <> [] -> Forall digit ds ->
    Number (k * decimal ds) (before ++ sign ++ between ++ ds ++ after).

(** The number of dots in a string. *)
Definition dot_count (s : list Z) : nat := count_occ Z.eq_dec s 46.

(** A major and a minor number, or a major number alone. *)
Definition Major_minor (M m : Z) (s : list Z) : Prop :=
  exists a b, s = a ++ [46] ++ b /\ dot_count s = 1%nat /\ Number M a /\ Number m b /\
    1 <= M <= 7 /\ 0 <= m <= 14.
Definition Major (M : Z) (s : list Z) : Prop :=
  dot_count s = 0%nat /\ Number M s /\ 1 <= M <= 7.

(** Strings that are sent as text. *)
Definition Other (s : list Z) : Prop :=
  (dot_count s <= 1)%nat /\ (forall M m, ~ Major_minor M m s) /\ (forall M, ~ Major M s).

Inductive Sent : list Z -> list Z -> Prop :=
| sent_both : forall M m s, Major_minor M m s -> Sent s [128 + 16 * M + m]
| sent_major : forall M s, Major M s -> Sent s [128 + 16 * M + 15]
| sent_nothing : forall s, (2 <= dot_count s)%nat -> Sent s []
| sent_text : forall s, Other s -> Sent s (s ++ [0]).

(** A digit for the major, one or two for the minor number. *)
Definition plain_version (s : list Z) : Prop :=
  exists M m, 1 <= M <= 7 /\
    ((0 <= m <= 9 /\ s = [48 + M; 46; 48 + m]) \/
     (0 <= m <= 4 /\ s = [48 + M; 46; 49; 48 + m])).
