(** Specification: what can be left of a text when the octets that carry it are
    cut short.  It shares nothing with the model. *)
From Coq Require Import List ZArith.
From Verif Require Import SpecGsm SpecPack SpecDeliver.
Import ListNotations.
Open Scope Z_scope.

(** [starts a l]: [l] begins with [a]. *)
Definition starts (a l : list Z) : Prop := exists r, l = a ++ r.

(** The octets of a user data header, with its length; none without a header. *)
Definition header_octets (hdr : option (list element)) : list Z :=
  match hdr with
  | None => []
  | Some els => Z.of_nat (length (serial els)) :: serial els
  end.

(** [shown text kept t]: of the septets of [text] only [kept] are left, and [t] is
    what they read as: the whole characters, and a no-break space if the last
    septet is an escape. *)
Definition shown (text kept t : list Z) : Prop :=
  exists whole, starts whole text /\
    ((gsm_text whole kept /\ t = whole) \/
     (exists g, kept = g ++ [esc] /\ gsm_text whole g /\ t = whole ++ [0xA0])).

(** [kept_text coding h m text t]: of the user data of a message only the first
    [m] octets are left, the header taking [h] of them, and [t] is the text in
    what is left: the octets of 8-bit data, the complete characters of UCS-2, and
    of GSM text what the complete septets read as. *)
Definition kept_text (coding h m : Z) (text t : list Z) : Prop :=
  if coding =? 4 then t = firstn (Z.to_nat (m - h)) text
  else if coding =? 8 then t = firstn (Z.to_nat ((m - h) / 2)) text
  else exists g, gsm_text text g /\
    shown text (firstn (Z.to_nat (8 * m / 7 - header_septets h)) g) t.
