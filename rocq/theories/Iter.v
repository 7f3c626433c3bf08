(** Model of messaging/mms/iterator.py: an iterator with look-ahead. *)
From Verif Require Import Py.
Open Scope Z_scope.

(** iterator.py 30-33: the attributes of [PreviewIterator].  [it_rest] is what
    the wrapped iterator [_it] has not delivered yet, [it_cache] is
    [_cached_values] and [it_pos] is [_preview_pos], which is never negative. *)
Record piter := Piter { it_rest : list Z; it_cache : list Z; it_pos : nat }.

(** iterator.py 30-33: [PreviewIterator(data)]. *)
Definition new_iter (data : list Z) : piter := Piter data [] 0.

(** [self._it.next()]: the builtin iterator of a list or an array. *)
Definition it_next : ST piter Z :=
  fun it =>
    match it_rest it with
    | [] => (Err StopIteration, it)
    | b :: r => (Ok b, Piter r (it_cache it) (it_pos it))
    end.

(** iterator.py 70-71: [reset_preview]. *)
Definition reset_preview : ST piter unit :=
  st_upd (fun it => Piter (it_rest it) (it_cache it) 0).

(** iterator.py 38-43: [next]. *)
Definition next : ST piter Z :=
  _ <~ reset_preview ;;
  it <~ st_get ;;
  match it_cache it with
  | b :: c => _ <~ st_upd (fun it => Piter (it_rest it) c (it_pos it)) ;; st_ret b
  | [] => it_next
  end.

(** iterator.py 45-68: [preview]. *)
Definition preview : ST piter Z :=
  it <~ st_get ;;
  value <~ (match nth_error (it_cache it) (it_pos it) with
            | Some v => st_ret v
            | None =>
                v <~ it_next ;;
                _ <~ st_upd (fun it => Piter (it_rest it) (it_cache it ++ [v])
                                             (it_pos it)) ;;
                st_ret v
            end) ;;
  _ <~ st_upd (fun it => Piter (it_rest it) (it_cache it) (S (it_pos it))) ;;
  st_ret value.

(** Number of bytes the iterator can still deliver; only used as fuel. *)
Definition bytes_left (it : piter) : nat :=
  (length (it_cache it) + length (it_rest it))%nat.

(** Run a loop of the code with enough fuel for one step per remaining byte and
    one more. *)
Definition fuelled {A} (loop : nat -> ST piter A) : ST piter A :=
  fun it => loop (S (bytes_left it)) it.

(** [try: m except e: h] for one exception class. *)
Definition exn_eqb (a b : exn) : bool :=
  match a, b with
  | DecodeError, DecodeError | StopIteration, StopIteration
  | EncodeError, EncodeError | IndexError, IndexError => true
  | _, _ => false
  end.
Definition st_catch {S A} (m : ST S A) (e : exn) (h : ST S A) : ST S A :=
  fun s => match m s with
           | (Err e', s') => if exn_eqb e e' then h s' else (Err e', s')
           | r => r
           end.
