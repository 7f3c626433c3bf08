(** What slides and messages are worth in a program that shares them: each slide is
    worth the calls made on it, wherever they stand in the program, and each message the
    calls made on it, its slides being those slides as they are now. *)
From Verif Require Import Py Iter WspDec WspEnc Message MmsEnc Share.
Open Scope Z_scope.

(** The calls on slide [i], one at a time. *)
Definition on_slide (w : world) (i : nat) (g : page) (c : hcall) : page :=
  match c with
  | CImage j f tb te => if Nat.eqb j i then snd (add_image w f tb te g) else g
  | CAudio j f tb te => if Nat.eqb j i then snd (add_audio w f tb te g) else g
  | CText j t tb te => if Nat.eqb j i then snd (add_text t tb te g) else g
  | CDuration j d => if Nat.eqb j i then snd (set_duration d g) else g
  | _ => g
  end.
Definition slide (w : world) (cs : list hcall) (i : nat) : page :=
  fold_left (on_slide w i) cs new_page.

(** The calls on message [k]; [slides] says what each slide is worth.  Encoding counts
    only for what it does to the headers. *)
Definition on_message (w : world) (slides : nat -> page) (k : nat) (m : message) (c : hcall)
  : message :=
  match c with
  | CAdd j i => if Nat.eqb j k then snd (add_page (slides i) m) else m
  | CData j p => if Nat.eqb j k then add_data_part p m else m
  | CHeader j n v => if Nat.eqb j k then with_headers (d_set leqb n v (m_headers m)) m else m
  | CEncode j rand => if Nat.eqb j k then snd (encode_message_header w rand m) else m
  | _ => m
  end.
Definition sent (w : world) (cs : list hcall) (k : nat) : message :=
  fold_left (on_message w (slide w cs) k) cs new_message.

(** What a call returns after the program [cs]. *)
Definition answered (render : xml -> list Z) (w : world) (cs : list hcall) (c : hcall)
  : res (list Z) :=
  match c with
  | CImage i f tb te => shown_octets (fst (add_image w f tb te (slide w cs i)))
  | CAudio i f tb te => shown_octets (fst (add_audio w f tb te (slide w cs i)))
  | CText i t tb te => shown_octets (fst (add_text t tb te (slide w cs i)))
  | CDuration i d => shown_octets (fst (set_duration d (slide w cs i)))
  | CAdd k i => shown_octets (fst (add_page (slide w cs i) (sent w cs k)))
  | CData _ _ | CHeader _ _ _ => Ok []
  | CEncode k rand => fst (encode render w rand (sent w cs k))
  end.
