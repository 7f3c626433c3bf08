(** Specification of the SMIL description of a slide show (C61).  Elements are
    built with the [xml] type of the model; nothing else of the model is used. *)
From Coq Require Import ZArith List.
Import ListNotations.
From Verif Require Import Py Message.
Open Scope Z_scope.

(** Decimal notation: the digits without leading zeros, a minus sign in front of
    negative numbers. *)
Definition digits_value (l : list Z) : Z := fold_left (fun n c => n * 10 + (c - 48)) l 0.
Definition natural_notation (n : Z) (s : list Z) : Prop :=
  s <> [] /\ Forall (fun c => 48 <= c <= 57) s /\ digits_value s = n /\
  (n <> 0 -> hd 0 s <> 48) /\ (n = 0 -> s = [48]).
Definition notation (n : Z) (s : list Z) : Prop :=
  (0 <= n /\ natural_notation n s) \/
  (n < 0 /\ exists t, s = 45 :: t /\ natural_notation (- n) t).

(** The time attributes of an element shown from [tb] to [te] on a slide that
    lasts [duration]: none when neither is positive; the end is cut to the
    duration. *)
Definition times (duration tb te : Z) (attrs : list (list Z * list Z)) : Prop :=
  (tb <= 0 /\ te <= 0 /\ attrs = []) \/
  ((0 < tb \/ 0 < te) /\ exists b e, notation tb b /\ notation (Z.min te duration) e /\
     attrs = [(str "begin", b); (str "end", e)]).

(** An element with these fixed attributes followed by its times. *)
Definition timed (tag : list Z) (fixed : list (list Z * list Z)) (duration tb te : Z)
  (x : xml) : Prop :=
  exists attrs, times duration tb te attrs /\ x = Elem tag (fixed ++ attrs) [].

(** What a medium is described by: its source text and its times. *)
Definition medium := option (list Z * Z * Z).
Definition shown (tag : list Z) (region : list (list Z * list Z)) (duration : Z)
  (s : medium) (l : list xml) : Prop :=
  match s with
  | None => l = []
  | Some (src, tb, te) =>
      exists x, timed tag ([(str "src", src)] ++ region) duration tb te x /\ l = [x]
  end.

(** The [par] element of a slide: its duration; image, text, audio. *)
Definition slide_element (duration : Z) (image text audio : medium) (x : xml) : Prop :=
  exists d i t a, notation duration d /\
    shown (str "img") [(str "region", str "Image")] duration image i /\
    shown (str "text") [(str "region", str "Text")] duration text t /\
    shown (str "audio") [] duration audio a /\
    x = Elem (str "par") [(str "duration", d)] (i ++ t ++ a).

(** The whole description: screen size, two regions, one [par] per slide. *)
Definition place (id : string) (left top width height : string) : xml :=
  Elem (str "region") [(str "id", str id); (str "left", str left); (str "top", str top);
                       (str "width", str width); (str "height", str height)] [].
Definition slide_show (width height : Z) (pars : list xml) (x : xml) : Prop :=
  exists w h, notation width w /\ notation height h /\
    x = Elem (str "smil") []
      [Elem (str "head") []
         [Elem (str "layout") []
            [Elem (str "root-layout") [(str "width", w); (str "height", h)] [];
             place "Image" "0" "0" "176" "144"; place "Text" "176" "144" "176" "76"]];
       Elem (str "body") [] pars].
