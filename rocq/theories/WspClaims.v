(** Vocabulary relating the iterator model to the statements of the WSP and MMS
    properties. *)
From Verif Require Import Py Iter Tables WspDec WspEnc SpecWsp.
Open Scope Z_scope.

(** The bytes the iterator has still to deliver. *)
Definition remaining (it : piter) : list Z := it_cache it ++ it_rest it.

(** [m] decodes [bytes] to [v]: on every iterator that is not looking ahead and
    has [bytes] in front of it, whatever follows, [m] returns [v] and leaves
    exactly what follows. *)
Definition Decodes {A} (m : ST piter A) (bytes : list Z) (v : A) : Prop :=
  forall rest it, remaining it = bytes ++ rest -> it_pos it = 0%nat ->
    exists it', m it = (Ok v, it') /\ remaining it' = rest /\ it_pos it' = 0%nat.

(** Iterators a program can obtain: a new one, and what the three methods make of
    it. *)
Definition do_call (k : call) (it : piter) : answer * piter :=
  let view (x : res Z * piter) :=
    match x with
    | (Ok b, it') => (Item b, it')
    | (Err StopIteration, it') => (End, it')
    | (Err _, it') => (Nothing, it')
    end in
  match k with
  | Next => view (next it)
  | Preview => view (preview it)
  | Reset => (Nothing, snd (reset_preview it))
  end.

Fixpoint do_calls (ks : list call) (it : piter) : list answer * piter :=
  match ks with
  | [] => ([], it)
  | k :: r =>
      let (a, it1) := do_call k it in
      let (l, it2) := do_calls r it1 in
      (a :: l, it2)
  end.

Definition reachable (it : piter) : Prop :=
  exists data ks, it = snd (do_calls ks (new_iter data)).

(** Media types that have an assigned number, or are text that a decoder does not
    take for a number or a length: the first character is printable ASCII. *)
Definition plain_media (media : list Z) : Prop :=
  In media well_known_content_types \/
  (no_nul media /\ starts_with (fun c => 32 <= c < 127) media).

(** The decoder [m] does not move when it raises DecodeError (C49): whatever was
    done with the iterator before, the bytes it has still to deliver are the
    same, and so is the next one. *)
Definition Unmoved {A} (m : ST piter A) : Prop :=
  forall it, reachable it -> fst (m it) = Err DecodeError ->
    remaining (snd (m it)) = remaining it /\ fst (next (snd (m it))) = fst (next it).

(** It does move on some data. *)
Definition Moved {A} (m : ST piter A) : Prop :=
  exists it, reachable it /\ fst (m it) = Err DecodeError /\
    remaining (snd (m it)) <> remaining it /\ fst (next (snd (m it))) <> fst (next it).

(** A decoded quality factor is n / 1000 (C65). *)
Definition is_thousandths (v : pval) (n : Z) : Prop :=
  match v with PRatio a b => 0 < b /\ a * 1000 = n * b | _ => False end.

(** [r] are the integers of the nested list [l] from left to right (C66). *)
Inductive Flat : list elt -> list Z -> Prop :=
| Flat_nil : Flat [] []
| Flat_int : forall n l r, Flat l r -> Flat (EInt n :: l) (n :: r)
| Flat_list : forall x l r r', Flat x r -> Flat l r' -> Flat (EList x :: l) (r ++ r').
