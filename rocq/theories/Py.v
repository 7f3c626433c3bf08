(** Fragments of the Python 2.7 runtime that the modelled code relies on.
    These definitions model the language and its builtins, not a file of the
    repository; each comment says which builtin and where the code uses it. *)
From Coq Require Export Ascii String.
From Coq Require Export List ZArith Bool.
Export ListNotations.
Open Scope Z_scope.

(** Exceptions raised anywhere in the modelled code.  [UnicodeError] stands for
    itself and its subclasses (UnicodeDecodeError, UnicodeEncodeError).
    [GenericException] is a bare [Exception(...)] (mms_pdu.py 320-321).
    [OutOfFuel] is not a Python exception: it marks a model loop stopped by its
    fuel, and is proved never to occur. *)
Inductive exn :=
| ValueError | UnicodeError | TypeError | IndexError | KeyError
| AttributeError | OverflowError | AssertionError | UnboundLocalError
| OSError | StopIteration | DecodeError | EncodeError | RuntimeError
| GenericException | OutOfFuel.

(** Result of running a piece of Python: a value or a raised exception. *)
Inductive res (A : Type) :=
| Ok (a : A)
| Err (e : exn).
Arguments Ok {A} a.
Arguments Err {A} e.

Definition bind {A B} (m : res A) (f : A -> res B) : res B :=
  match m with Ok a => f a | Err e => Err e end.

Notation "x <- m ;; k" := (bind m (fun x => k))
  (at level 61, m at next level, right associativity).

Notation "' p <- m ;; k" := (bind m (fun x => match x with p => k end))
  (at level 61, p pattern, m at next level, right associativity).

(** Evaluate left to right, stop at the first exception (list comprehension). *)
Fixpoint mapM {A B} (f : A -> res B) (l : list A) : res (list B) :=
  match l with
  | [] => Ok []
  | a :: l' => b <- f a ;; bs <- mapM f l' ;; Ok (b :: bs)
  end.

(** Python string literals as lists of character codes. *)
Definition str (s : string) : list Z :=
  map (fun a => Z.of_N (N_of_ascii a)) (list_ascii_of_string s).
Arguments str s%string.

(** [len(l)]. *)
Definition zlen {A} (l : list A) : Z := Z.of_nat (length l).

(** [l[i]] on a list, str or array, negative indices counted from the end. *)
Definition py_index {A} (l : list A) (i : Z) : res A :=
  let j := if i <? 0 then i + zlen l else i in
  if j <? 0 then Err IndexError
  else match nth_error l (Z.to_nat j) with
       | Some a => Ok a
       | None => Err IndexError
       end.

(** [l[a:b]] for [0 <= a] and [0 <= b]; the only slices the code takes apart
    from [l[:-1]] and [l[::-1]]. *)
Definition py_slice {A} (l : list A) (a b : Z) : list A :=
  firstn (Z.to_nat (b - a)) (skipn (Z.to_nat a) l).

(** [l[:b]] and [l[a:]] for non-negative bounds. *)
Definition py_to {A} (l : list A) (b : Z) : list A := firstn (Z.to_nat b) l.
Definition py_from {A} (l : list A) (a : Z) : list A := skipn (Z.to_nat a) l.

(** [l.pop(0)] on a list or array: the head and the rest. *)
Definition pop0 {A} (l : list A) : res (A * list A) :=
  match l with [] => Err IndexError | a :: l' => Ok (a, l') end.

(** [chr(n)]: ValueError outside 0..255. *)
Definition py_chr (n : Z) : res Z :=
  if (0 <=? n) && (n <? 256) then Ok n else Err ValueError.

(** [unichr(n)] on a wide build ([sys.maxunicode = 0x10FFFF]). *)
Definition py_unichr (n : Z) : res Z :=
  if (0 <=? n) && (n <? 1114112) then Ok n else Err ValueError.

(** A Python 2 string object: [unicode] when [is_uni], else [str]. *)
Record pystr := PyStr { is_uni : bool; chars : list Z }.

Definition is_ascii (l : list Z) : bool := forallb (fun c => c <? 128) l.

(** [a + b] on string objects: a [str] operand meeting a [unicode] one is
    decoded as ASCII first. *)
Definition pystr_add (a b : pystr) : res pystr :=
  match is_uni a, is_uni b with
  | true, true => Ok (PyStr true (chars a ++ chars b))
  | false, false => Ok (PyStr false (chars a ++ chars b))
  | true, false =>
      if is_ascii (chars b) then Ok (PyStr true (chars a ++ chars b))
      else Err UnicodeError
  | false, true =>
      if is_ascii (chars a) then Ok (PyStr true (chars a ++ chars b))
      else Err UnicodeError
  end.

(** [c.isspace()] for the C locale, as used by [int()] and [str.strip()]. *)
Definition is_space (c : Z) : bool :=
  (c =? 32) || ((9 <=? c) && (c <=? 13)).

Fixpoint drop_space (l : list Z) : list Z :=
  match l with
  | c :: l' => if is_space c then drop_space l' else l
  | [] => []
  end.

(** [s.strip()]. *)
Definition py_strip (l : list Z) : list Z :=
  rev (drop_space (rev (drop_space l))).

(** Value of a digit character in bases up to 36. *)
Definition digit_val (c : Z) : option Z :=
  if (48 <=? c) && (c <=? 57) then Some (c - 48)
  else if (97 <=? c) && (c <=? 122) then Some (c - 87)
  else if (65 <=? c) && (c <=? 90) then Some (c - 55)
  else None.

(** The digits at the front of [l], accumulated in base [b]. *)
Fixpoint parse_digits (b acc : Z) (l : list Z) : Z * list Z :=
  match l with
  | c :: l' =>
      match digit_val c with
      | Some d => if d <? b then parse_digits b (acc * b + d) l' else (acc, l)
      | None => (acc, l)
      end
  | [] => (acc, [])
  end.

Definition starts_digit (b : Z) (l : list Z) : bool :=
  match l with
  | c :: _ => match digit_val c with Some d => d <? b | None => false end
  | [] => false
  end.

(** [int(s, b)] for a [str] and base 10 or 16: blanks, a sign, blanks again
    (PyOS_strtol skips blanks twice), an optional [0x] in base 16, at least one
    digit, blanks, end. *)
Definition py_int (b : Z) (s : list Z) : res Z :=
  let s1 := drop_space s in
  let '(sg, s2) :=
    match s1 with
    | c :: r => if c =? 43 then (1, r) else if c =? 45 then (-1, r) else (1, s1)
    | [] => (1, [])
    end in
  let s3 := drop_space s2 in
  let s4 :=
    match s3 with
    | z :: x :: r =>
        if (b =? 16) && (z =? 48) && ((x =? 120) || (x =? 88)) && starts_digit b r
        then r else s3
    | _ => s3
    end in
  if starts_digit b s4 then
    let '(v, r) := parse_digits b 0 s4 in
    match drop_space r with
    | [] => Ok (sg * v)
    | _ => Err ValueError
    end
  else Err ValueError.

(** One lower-case hexadecimal digit. *)
Definition hexdigit (d : Z) : Z := if d <? 10 then 48 + d else 87 + d.

Fixpoint hex_fuel (fuel : nat) (n : Z) (acc : list Z) : list Z :=
  match fuel with
  | O => acc
  | S f =>
      let acc := hexdigit (n mod 16) :: acc in
      if n / 16 =? 0 then acc else hex_fuel f (n / 16) acc
  end.

(** ["%x" % n] for [n >= 0]. *)
Definition py_hex (n : Z) : list Z := hex_fuel (S (Z.to_nat (Z.log2 n))) n [].

(** ["%02x" % n] for [n >= 0]. *)
Definition hex02 (n : Z) : list Z :=
  match py_hex n with
  | [d] => [48; d]
  | l => l
  end.

(** Upper-case an ASCII letter: [s.upper()] on the hexadecimal strings. *)
Definition up (c : Z) : Z := if (97 <=? c) && (c <=? 122) then c - 32 else c.
Definition py_upper (l : list Z) : list Z := map up l.

(** ["%02d" % n] for [0 <= n < 100], which is all the code formats this way. *)
Definition dec02 (n : Z) : list Z := [48 + n / 10; 48 + n mod 10].

(** Slices [s[i:i+2]] for [i in range(0, len(s), 2)]. *)
Fixpoint chunks2 {A} (l : list A) : list (list A) :=
  match l with
  | a :: b :: r => [a; b] :: chunks2 r
  | [a] => [[a]]
  | [] => []
  end.

(** Dictionaries as association lists; the key type of the code is str or int.
    [d[k] = v] overwrites in place or appends. *)
Fixpoint d_get {K V} (eqb : K -> K -> bool) (k : K) (d : list (K * V))
  : option V :=
  match d with
  | [] => None
  | (k', v) :: r => if eqb k k' then Some v else d_get eqb k r
  end.
Fixpoint d_set {K V} (eqb : K -> K -> bool) (k : K) (v : V) (d : list (K * V))
  : list (K * V) :=
  match d with
  | [] => [(k, v)]
  | (k', v') :: r =>
      if eqb k k' then (k', v) :: r else (k', v') :: d_set eqb k v r
  end.
Fixpoint d_del {K V} (eqb : K -> K -> bool) (k : K) (d : list (K * V))
  : list (K * V) :=
  match d with
  | [] => []
  | (k', v') :: r => if eqb k k' then r else (k', v') :: d_del eqb k r
  end.

(** String equality. *)
Fixpoint leqb (a b : list Z) : bool :=
  match a, b with
  | [], [] => true
  | x :: a', y :: b' => (x =? y) && leqb a' b'
  | _, _ => false
  end.

(** Code that mutates an object of type [S] and may raise: the final state is
    returned in both cases, since Python keeps effects made before a raise. *)
Definition ST (S A : Type) := S -> res A * S.
Definition st_ret {S A} (a : A) : ST S A := fun s => (Ok a, s).
Definition st_err {S A} (e : exn) : ST S A := fun s => (Err e, s).
Definition st_lift {S A} (r : res A) : ST S A := fun s => (r, s).
Definition st_get {S} : ST S S := fun s => (Ok s, s).
Definition st_upd {S} (f : S -> S) : ST S unit := fun s => (Ok tt, f s).
Definition st_bind {S A B} (m : ST S A) (f : A -> ST S B) : ST S B :=
  fun s => match m s with
           | (Ok a, s') => f a s'
           | (Err e, s') => (Err e, s')
           end.
Notation "x <~ m ;; k" := (st_bind m (fun x => k))
  (at level 61, m at next level, right associativity).
Notation "' p <~ m ;; k" := (st_bind m (fun x => match x with p => k end))
  (at level 61, p pattern, m at next level, right associativity).
