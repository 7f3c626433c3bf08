(** When the media of a slide are shown: what the documentation of add_image,
    add_text and add_audio says, and what the attributes of a SMIL element say
    (C100, C101).  Independent of the model. *)
From Coq Require Import ZArith List.
Import ListNotations.
From Verif Require Import Py SpecSmil.
Open Scope Z_scope.

(** Documented: a medium given the times [tb] and [te] is shown at the moment [t]
    of a slide that lasts [duration].  A begin of 0 or less means from the moment
    the slide is opened; an end of 0 or less, or beyond the duration, means until
    the next slide. *)
Definition documented (duration tb te t : Z) : Prop :=
  0 <= t < duration /\ (tb <= 0 \/ tb <= t) /\ (te <= 0 \/ duration < te \/ t < te).

(** Described: not before a [begin], not from an [end] on. *)
Definition described_at (duration : Z) (attrs : list (list Z * list Z)) (t : Z) : Prop :=
  0 <= t < duration /\
  (forall b n, In (str "begin", b) attrs -> notation n b -> n <= t) /\
  (forall e n, In (str "end", e) attrs -> notation n e -> t < n).

(** SMIL clock values in milliseconds: a count without a metric counts seconds. *)
Definition digits (s : list Z) : Prop := s <> [] /\ Forall (fun c => 48 <= c <= 57) s.
Inductive clock : list Z -> Z -> Prop :=
| clock_bare s : digits s -> clock s (1000 * digits_value s)
| clock_s s : digits s -> clock (s ++ str "s") (1000 * digits_value s)
| clock_ms s : digits s -> clock (s ++ str "ms") (digits_value s).
