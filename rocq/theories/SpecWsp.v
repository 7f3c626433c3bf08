(** Independent specifications for the WSP and MMS properties.  Nothing here
    refers to the model of the encoders and decoders. *)
From Coq Require Import ZArith List.
Import ListNotations.
Open Scope Z_scope.

(** * A cursor over a list (C40) *)

Inductive call := Next | Preview | Reset.

(** Read position and look-ahead position, both counted from the start of the
    data. *)
Record cursor := Cursor { rd : nat; ahead : nat }.

(** What a call returns: an element, the end of the data, or nothing. *)
Inductive answer := Item (b : Z) | End | Nothing.

Definition item_at (data : list Z) (i : nat) : answer :=
  match nth_error data i with Some b => Item b | None => End end.

Definition cursor_call (data : list Z) (k : call) (c : cursor) : answer * cursor :=
  match k with
  | Next =>
      (* reads at the read position and puts the look-ahead back there *)
      let rd' := match item_at data (rd c) with Item _ => S (rd c) | _ => rd c end in
      (item_at data (rd c), Cursor rd' rd')
  | Preview =>
      (* reads at the look-ahead position, the read position stays *)
      (item_at data (ahead c),
       Cursor (rd c)
              (match item_at data (ahead c) with Item _ => S (ahead c) | _ => ahead c end))
  | Reset => (Nothing, Cursor (rd c) (rd c))
  end.

Fixpoint cursor_answers (data : list Z) (ks : list call) (c : cursor) : list answer :=
  match ks with
  | [] => []
  | k :: r => let (a, c') := cursor_call data k c in a :: cursor_answers data r c'
  end.

(** * Base 128 numbers (C41) *)

(** Value of base 128 digits, most significant first. *)
Definition base128 (ds : list Z) : Z := fold_left (fun n d => n * 128 + d) ds 0.

Definition digit128 (d : Z) : Prop := 0 <= d < 128.

(** The octets of a uintvar (WAP-230 8.1.2): every digit but the last carries
    the continuation bit. *)
Definition uintvar_octets (ds : list Z) (d : Z) : list Z :=
  map (fun x => 128 + x) ds ++ [d].

(** No leading zero digit. *)
Definition minimal128 (ds : list Z) : Prop :=
  match ds with [] => True | x :: _ => x <> 0 end.

(** * Multi-octet integers (C44) *)

(** Value of octets, most significant first, which is the order of WAP-230
    8.4.2.1. *)
Definition big_endian (l : list Z) : Z := fold_left (fun n b => n * 256 + b) l 0.

(** * Text (C45, C46) *)

(** The separators of RFC 2616 as the code lists them (no tab, no quote). *)
Definition separator_chars : list Z :=
  [11; 32; 40; 41; 44; 47; 58; 59; 60; 61; 62; 63; 64; 91; 92; 93; 123; 125].

Definition no_nul (s : list Z) : Prop := Forall (fun c => 0 < c < 256) s.
Definition starts_with (P : Z -> Prop) (s : list Z) : Prop :=
  match s with c :: _ => P c | [] => False end.
Definition token_string (s : list Z) : Prop :=
  s <> [] /\ Forall (fun c => 31 < c < 256 /\ ~ In c separator_chars) s.

(** First characters that cannot begin a number: no digit, sign or blank (C47). *)
Definition not_numeric_start (c : Z) : Prop :=
  32 < c < 127 /\ c <> 43 /\ c <> 45 /\ ~ (48 <= c <= 57).

(** * Quality factors (C65) *)

(** The number transmitted for the quality factor n / 1000, 0 <= n < 1000
    (WAP-230 8.4.2.3): factors with at most two decimals are multiplied by 100
    and incremented by one, the others are multiplied by 1000 and incremented by
    100. *)
Definition q_code (n : Z) : Z :=
  if n mod 10 =? 0 then n / 10 + 1 else n + 100.
