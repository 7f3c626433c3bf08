(** The frame of a multipart body (WAP-230-WSP 8.5): the number of entries, and for
    each entry the length of its headers, the length of its data, headers and
    data.  Nothing here refers to the model. *)
From Coq Require Import ZArith List.
Import ListNotations.
From Verif Require Import SpecMms.
Open Scope Z_scope.

(** An entry that announces its data to be [announced] octets long. *)
Inductive Frame (announced : Z) (data : list Z) : list Z -> Prop :=
| frame : forall headers hl dl, all_octets headers ->
    Uintvar (n_octets headers) hl -> Uintvar announced dl ->
    Frame announced data (hl ++ dl ++ headers ++ data).

(** A body that announces [count] entries and has the given ones. *)
Inductive Frames (count : Z) (entries : list (Z * list Z)) : list Z -> Prop :=
| frames : forall cl fs, Uintvar count cl ->
    Forall2 (fun e l => Frame (fst e) (snd e) l) entries fs ->
    Frames count entries (cl ++ concat fs).

(** A body whose number and lengths are right. *)
Definition Framed (datas : list (list Z)) : list Z -> Prop :=
  Frames (Z.of_nat (length datas)) (map (fun d => (n_octets d, d)) datas).
