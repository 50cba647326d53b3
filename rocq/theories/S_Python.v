(** A grammar of Python literals (docs.python.org, lexical analysis and expressions): which texts are literals and what they denote.
    Same restrictions as the model of py_literal: no bytes, floats, complex numbers, sums, non-decimal integers, [\N{...}]. *)
From Verif Require Import M_Base M_PyLit S_Text.
Open Scope N_scope.

Definition blank (c : N) : Prop := c = 32 \/ c = 9 \/ c = 12.
Definition spaces (b : text) : Prop := Forall blank b.

(** * Strings *)
Definition digit (c d : N) : Prop :=
  (48 <= c <= 57 /\ d = c - 48) \/ (65 <= c <= 70 /\ d = c - 55) \/ (97 <= c <= 102 /\ d = c - 87).
(** A sequence of digits in a given base and its value. *)
Inductive in_base (base : N) : text -> N -> Prop :=
| in_base_nil : in_base base [] 0
| in_base_snoc ds n c d : in_base base ds n -> digit c d -> d < base -> in_base base (ds ++ [c]) (base * n + d).

Definition backslash : N := 92.
(** Character after the backslash, character denoted: the backslash itself, the two quotes, and seven letters. *)
Definition simple_escapes : list (N * N) :=
  [(92, 92); (39, 39); (34, 34); (chr "a", 7); (chr "b", 8); (chr "f", 12); (chr "n", 10); (chr "r", 13); (chr "t", 9); (chr "v", 11)].
(** Letter after the backslash, number of hexadecimal digits that follow. *)
Definition hex_escapes : list (N * N) := [(chr "x", 2); (chr "u", 4); (chr "U", 8)].
(** All characters that mean something after a backslash. *)
Definition escape_characters : list N := map fst simple_escapes ++ map fst hex_escapes ++ lit "01234567" ++ [10; chr "N"].

(** One item of a string: its source and the characters it denotes. *)
Inductive string_item (long : bool) (q : N) : text -> text -> Prop :=
| item_raw c : c <> backslash -> (long = false -> c <> q /\ c <> 10 /\ c <> 13) -> string_item long q [c] [c]
| item_simple e x : In (e, x) simple_escapes -> string_item long q [backslash; e] [x]
| item_continuation : string_item long q [backslash; 10] []
| item_octal ds n : in_base 8 ds n -> 1 <= lenN ds <= 3 -> string_item long q (backslash :: ds) [n]
| item_hex e k ds n : In (e, k) hex_escapes -> in_base 16 ds n -> lenN ds = k -> scalar_value n = true -> string_item long q (backslash :: e :: ds) [n]
| item_other e : ~ In e escape_characters -> string_item long q [backslash; e] [backslash; e].

Definition quotes (long : bool) (q : N) : text := if long then [q; q; q] else [q].
Definition octal_digit (c : N) : Prop := 48 <= c <= 55.
(** An octal escape with fewer than three digits is not followed by an octal digit. *)
Definition octal_complete (item rest : text) : Prop :=
  forall ds n c r, item = backslash :: ds -> in_base 8 ds n -> 1 <= lenN ds < 3 -> rest = c :: r -> ~ octal_digit c.
(** The rest of a string after its opening quotes: items, then the closing quotes.  Three quotes in a row end a long string. *)
Inductive string_rest (long : bool) (q : N) : text -> text -> Prop :=
| string_end : string_rest long q (quotes long q) []
| string_more item xs rest s : string_item long q item xs -> string_rest long q rest s -> octal_complete item rest ->
    (long = true -> forall r, item ++ rest <> [q; q; q] ++ r) -> string_rest long q (item ++ rest) (xs ++ s).
Definition string_literal (src s : text) : Prop :=
  exists prefix long q rest, src = prefix ++ quotes long q ++ rest /\ (prefix = [] \/ prefix = lit "u" \/ prefix = lit "U")
    /\ (q = 39 \/ q = 34) /\ string_rest long q rest s.

(** * Integers *)
(** Digits satisfying [ok], single underscores allowed before each: the source and the digits. *)
Inductive more_digits (ok : N -> Prop) : text -> text -> Prop :=
| no_digits : more_digits ok [] []
| next_digit d src ds : ok d -> more_digits ok src ds -> more_digits ok (d :: src) (d :: ds)
| underscore_digit d src ds : ok d -> more_digits ok src ds -> more_digits ok (95 :: d :: src) (d :: ds).
(** No leading zeros, except in zero itself. *)
Inductive natural : text -> N -> Prop :=
| natural_zero src ds : more_digits (eq 48) src ds -> natural (48 :: src) 0
| natural_positive d src ds : 49 <= d <= 57 -> more_digits (fun c => 48 <= c <= 57) src ds -> natural (d :: src) (decimal_value (d :: ds)).
(** Any number of signs and blanks before it, the first of which is a sign. *)
Inductive signed_rest : text -> Z -> Prop :=
| signed_natural src n : natural src n -> signed_rest src (Z.of_N n)
| signed_blank c src z : blank c -> signed_rest src z -> signed_rest (c :: src) z
| signed_plus src z : signed_rest src z -> signed_rest (chr "+" :: src) z
| signed_minus src z : signed_rest src z -> signed_rest (chr "-" :: src) (- z).
Definition integer_literal (src : text) (z : Z) : Prop := signed_rest src z /\ forall c r, src = c :: r -> ~ blank c.

(** * Values *)
Inductive literal : text -> value -> Prop :=
| lit_string src s : string_literal src s -> literal src (VString s)
| lit_integer src z : integer_literal src z -> literal src (VInteger z)
| lit_true : literal (lit "True") (VBool true)
| lit_false : literal (lit "False") (VBool false)
| lit_none : literal (lit "None") VNone
| lit_empty_tuple b : spaces b -> literal (lit "(" ++ b ++ lit ")") (VTuple [])
| lit_tuple b1 src v b2 b3 items vs : spaces b1 -> literal src v -> spaces b2 -> spaces b3 -> sequence (chr ")") items vs ->
    literal (lit "(" ++ b1 ++ src ++ b2 ++ lit "," ++ b3 ++ items) (VTuple (v :: vs))
| lit_list b items vs : spaces b -> sequence (chr "]") items vs -> literal (lit "[" ++ b ++ items) (VList vs)
| lit_set b items vs : spaces b -> sequence (chr "}") items vs -> vs <> [] -> literal (lit "{" ++ b ++ items) (VSet vs)
| lit_dict b items vs : spaces b -> entries items vs -> literal (lit "{" ++ b ++ items) (VDict vs)
(** Values separated by commas, possibly with a comma after the last, and the closing bracket. *)
with sequence : N -> text -> list value -> Prop :=
| sequence_end close : sequence close [close] []
| sequence_last close src v b : literal src v -> spaces b -> sequence close (src ++ b ++ [close]) [v]
| sequence_more close src v b1 b2 items vs : literal src v -> spaces b1 -> spaces b2 -> sequence close items vs ->
    sequence close (src ++ b1 ++ lit "," ++ b2 ++ items) (v :: vs)
(** The same for [key: value] pairs. *)
with entries : text -> list (value * value) -> Prop :=
| entries_end : entries (lit "}") []
| entries_last ks k b1 b2 vs v b3 : literal ks k -> spaces b1 -> spaces b2 -> literal vs v -> spaces b3 ->
    entries (ks ++ b1 ++ lit ":" ++ b2 ++ vs ++ b3 ++ lit "}") [(k, v)]
| entries_more ks k b1 b2 vs v b3 b4 items l : literal ks k -> spaces b1 -> spaces b2 -> literal vs v -> spaces b3 -> spaces b4 -> entries items l ->
    entries (ks ++ b1 ++ lit ":" ++ b2 ++ vs ++ b3 ++ lit "," ++ b4 ++ items) ((k, v) :: l).

(** A whole text. *)
Definition python_literal (src : text) (v : value) : Prop :=
  exists b1 s b2, src = b1 ++ s ++ b2 /\ spaces b1 /\ spaces b2 /\ literal s v.
