(** What a slide holds after any sequence of calls (C128). *)
From Verif Require Import Py WspDec Message MessageClaims.
Open Scope Z_scope.

(** [add_image], [add_audio], [add_text] and [set_duration]; [w] is how the files are at
    the time of the call. *)
Inductive fill :=
| FillImage (w : world) (path : list Z) (time_begin time_end : Z)
| FillAudio (w : world) (path : list Z) (time_begin time_end : Z)
| FillText (text : list Z) (time_begin time_end : Z)
| FillTime (duration : Z).

(** The times are ints and do not end before they begin. *)
Definition in_time (b e : Z) : Prop := machine_int b /\ machine_int e /\ ~ (0 < e < b).

(** What a call puts in its place, if it is not refused. *)
Inductive puts_image : fill -> world * list Z * Z * Z -> Prop :=
| pi_image w f b e : w_file w f <> None -> in_time b e -> puts_image (FillImage w f b e) (w, f, b, e).
Inductive puts_audio : fill -> world * list Z * Z * Z -> Prop :=
| pa_audio w f b e : w_file w f <> None -> in_time b e -> puts_audio (FillAudio w f b e) (w, f, b, e).
Inductive puts_text : fill -> list Z * Z * Z -> Prop :=
| px_text t b e : in_time b e -> puts_text (FillText t b e) (t, b, e).
Inductive puts_time : fill -> Z -> Prop :=
| pt_time d : machine_int d -> 0 < d -> puts_time (FillTime d) d.

(** The last thing put, if any. *)
Inductive last_put {A} (P : fill -> A -> Prop) (cs : list fill) : option A -> Prop :=
| lp_none : (forall c a, In c cs -> ~ P c a) -> last_put P cs None
| lp_some before c a after : cs = before ++ c :: after -> P c a ->
    (forall c' a', In c' after -> ~ P c' a') -> last_put P cs (Some a).
