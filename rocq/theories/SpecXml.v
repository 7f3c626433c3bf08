(** Specification: how an XML 1.0 processor reads a document of elements and
    attributes (C99).  From the XML recommendation: productions 3 (S), 5 (Name,
    ASCII names only), 10 (AttValue, in double quotes), 40-44 (tags), 2 (Char),
    section 2.11 (line ends) and 3.3.3 (normalisation of attribute values).  A
    document without a declaration is in UTF-8.  Character references and text
    between elements are left out; the predefined entities are there.  Elements are
    built with the [xml] type of the model; nothing else of the model is used. *)
From Coq Require Import ZArith List Permutation.
Import ListNotations.
From Verif Require Import Py Message.
Open Scope Z_scope.

Definition xml_blank (c : Z) : Prop := c = 32 \/ c = 9 \/ c = 10 \/ c = 13.
Definition blanks (s : list Z) : Prop := Forall xml_blank s.

Definition letter (c : Z) : Prop := 65 <= c <= 90 \/ 97 <= c <= 122.
Definition name_char (c : Z) : Prop := letter c \/ 48 <= c <= 57 \/ c = 45 \/ c = 46 \/ c = 95 \/ c = 58.
Definition name (s : list Z) : Prop :=
  match s with [] => False | c :: r => (letter c \/ c = 95 \/ c = 58) /\ Forall name_char r end.

(** A character beyond ASCII, in UTF-8: two, three or four octets, no overlong
    form, no surrogate, not U+FFFE or U+FFFF, at most U+10FFFF. *)
Definition tail (c : Z) : Prop := 128 <= c <= 191.
Inductive utf8_char : list Z -> Prop :=
| utf8_2 a b : 194 <= a <= 223 -> tail b -> utf8_char [a; b]
| utf8_3 a b c : 224 <= a <= 239 -> tail b -> tail c ->
    (a = 224 -> 160 <= b) -> (a = 237 -> b <= 159) -> ~ (a = 239 /\ b = 191 /\ 190 <= c) ->
    utf8_char [a; b; c]
| utf8_4 a b c d : 240 <= a <= 244 -> tail b -> tail c -> tail d ->
    (a = 240 -> 144 <= b) -> (a = 244 -> b <= 143) -> utf8_char [a; b; c; d].

(** [att_value raw v]: what stands between the quotes, and the value it gives. *)
Inductive att_value : list Z -> list Z -> Prop :=
| av_end : att_value [] []
| av_char c raw v : 32 <= c <= 127 -> c <> 34 -> c <> 38 -> c <> 60 ->
    att_value raw v -> att_value (c :: raw) (c :: v)
| av_utf8 u raw v : utf8_char u -> att_value raw v -> att_value (u ++ raw) (u ++ v)
| av_break c raw v : c = 9 \/ c = 10 -> att_value raw v -> att_value (c :: raw) (32 :: v)
| av_cr raw v : hd 0 raw <> 10 -> att_value raw v -> att_value (13 :: raw) (32 :: v)
| av_crlf raw v : att_value raw v -> att_value (13 :: 10 :: raw) (32 :: v)
| av_amp raw v : att_value raw v -> att_value (str "&amp;" ++ raw) (38 :: v)
| av_lt raw v : att_value raw v -> att_value (str "&lt;" ++ raw) (60 :: v)
| av_gt raw v : att_value raw v -> att_value (str "&gt;" ++ raw) (62 :: v)
| av_quot raw v : att_value raw v -> att_value (str "&quot;" ++ raw) (34 :: v)
| av_apos raw v : att_value raw v -> att_value (str "&apos;" ++ raw) (39 :: v).

Inductive attributes : list Z -> list (list Z * list Z) -> Prop :=
| at_end : attributes [] []
| at_more b n raw v s l : b <> [] -> blanks b -> name n -> att_value raw v -> attributes s l ->
    attributes (b ++ n ++ [61; 34] ++ raw ++ [34] ++ s) ((n, v) :: l).

Inductive element : list Z -> xml -> Prop :=
| el_empty tag s l b : name tag -> attributes s l -> NoDup (map fst l) -> blanks b ->
    element (str "<" ++ tag ++ s ++ b ++ str "/>") (Elem tag l [])
| el_full tag s l b body kids b' : name tag -> attributes s l -> NoDup (map fst l) -> blanks b ->
    content body kids -> blanks b' ->
    element (str "<" ++ tag ++ s ++ b ++ str ">" ++ body ++ str "</" ++ tag ++ b' ++ str ">")
      (Elem tag l kids)
with content : list Z -> list xml -> Prop :=
| co_end b : blanks b -> content b []
| co_more b e x s kids : blanks b -> element e x -> content s kids -> content (b ++ e ++ s) (x :: kids).

(** A document: its root element between blanks. *)
Definition document (s : list Z) (x : xml) : Prop :=
  exists b e b', blanks b /\ blanks b' /\ element e x /\ s = b ++ e ++ b'.

(** The order of attributes means nothing. *)
Inductive same_tree : xml -> xml -> Prop :=
| same_elem tag l l' k k' : Permutation l l' -> same_trees k k' -> same_tree (Elem tag l k) (Elem tag l' k')
with same_trees : list xml -> list xml -> Prop :=
| same_nil : same_trees [] []
| same_cons x x' k k' : same_tree x x' -> same_trees k k' -> same_trees (x :: k) (x' :: k').

(** Texts that an attribute value can keep: UTF-8 without control characters. *)
Inductive plain_text : list Z -> Prop :=
| plain_end : plain_text []
| plain_char c s : 32 <= c <= 127 -> plain_text s -> plain_text (c :: s)
| plain_utf8 u s : utf8_char u -> plain_text s -> plain_text (u ++ s).

(** Texts that an attribute value can hold at all: also tabs and line ends. *)
Inductive legal_text : list Z -> Prop :=
| legal_end : legal_text []
| legal_char c s : 32 <= c <= 127 -> legal_text s -> legal_text (c :: s)
| legal_blank c s : xml_blank c -> legal_text s -> legal_text (c :: s)
| legal_utf8 u s : utf8_char u -> legal_text s -> legal_text (u ++ s).
