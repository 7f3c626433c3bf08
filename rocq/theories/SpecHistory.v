(** What a data part shows after any history, told from the last event that matters
    (C118). *)
From Verif Require Import Py Iter WspDec Message MessageClaims SpecAttach.
Open Scope Z_scope.

(** The events of [MessageClaims], and the assignment [part.headers[name] = value]. *)
Inductive act := Does (e : event) | SetHeader (name : list Z) (v : hval).

Definition acts (x : act) (s : world * part) : world * part :=
  match x with
  | Does e => happens e s
  | SetHeader k v =>
      let '(w, p) := s in
      (w, Part (d_set leqb k v (dp_headers p)) (dp_params p) (dp_filename p) (dp_data p))
  end.
Definition after (xs : list act) (w : world) : world * part :=
  fold_left (fun s x => acts x s) xs (w, new_part).

(** The files after a history: only writing changes them. *)
Definition files_after (xs : list act) (w : world) : world :=
  fold_left (fun w x => match x with Does (WriteFile f c) => write_file f c w | _ => w end) xs w.

(** What an event settles about the header [k]: nothing ([None]), that there is none
    ([Some None]), or its value.  Loading a file and giving data clear all others. *)
Inductive settles (w : world) (k : list Z) : act -> option hval -> Prop :=
| s_header v : settles w k (SetHeader k v) (Some v)
| s_media m : k = str "Content-Type" -> settles w k (Does (SetMedia m)) (Some (HType m []))
| s_data d m ps : k = str "Content-Type" -> settles w k (Does (SetData d m ps)) (Some (HType m ps))
| s_text t : k = str "Content-Type" ->
    settles w k (Does (SetText t)) (Some (HType (str "text/plain") []))
| s_load_type f m : w_file w f <> None -> k = str "Content-Type" -> file_type (w_mime w f) m ->
    settles w k (Does (Load f)) (Some (HType m []))
| s_load_location f base : w_file w f <> None -> k = str "Content-Location" ->
    last_component f base -> settles w k (Does (Load f)) (Some (HStr base))
| s_clear_data d m ps : k <> str "Content-Type" -> settles w k (Does (SetData d m ps)) None
| s_clear_text t : k <> str "Content-Type" -> settles w k (Does (SetText t)) None
| s_clear_load f : w_file w f <> None -> k <> str "Content-Type" -> k <> str "Content-Location" ->
    settles w k (Does (Load f)) None.

(** Giving the part its data. *)
Inductive gives_data (w : world) : act -> Prop :=
| g_data d m ps : gives_data w (Does (SetData d m ps))
| g_text t : gives_data w (Does (SetText t))
| g_load f : w_file w f <> None -> gives_data w (Does (Load f)).

(** None of the events [xs], in the files as they are then, is [P]. *)
Definition none (P : world -> act -> Prop) (w : world) (xs : list act) : Prop :=
  forall a x b, xs = a ++ x :: b -> ~ P (files_after a w) x.

(** The data is read while the file [f] is there. *)
Definition reads_file (f : list Z) (w : world) (x : act) : Prop :=
  x = Does ReadData /\ w_file w f <> None.
