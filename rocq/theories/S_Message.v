(** What is said about a dtype that a Rust type does not accept, independent of the model's printers. *)
From Verif Require Import M_Base M_Text M_TypeStr M_Header M_Serialize S_Text S_TypeStr S_TypeErr S_DText S_Elem S_Fault S_Reject.
Open Scope N_scope.

(** A dtype is shown as in a header; an array by itself, which has no such form, in words. *)
Inductive dtype_shown : dtype -> text -> Prop :=
| shown_as_written d w : dtype_text d w -> dtype_shown d w
| shown_array n d ds w : shortest_numeral ds n -> dtype_shown d w -> dtype_shown (DArray n d) (lit "<< array " ++ ds ++ lit " of " ++ w ++ lit " >>").

(** Rust's way of quoting a string: some characters have an escape of their own, other control characters are given by their number. *)
Definition own_escapes : list (N * string) := [(0, "0"); (9, "t"); (10, "n"); (13, "r"); (92, "\")]%string.
Inductive in_quotes : N -> text -> Prop :=
| quotes_named ch l : In (ch, l) own_escapes -> in_quotes ch (lit "\" ++ lit l)
| quotes_mark : in_quotes 34 [92; 34]
| quotes_number ch h : ch < 32 \/ ch = 127 -> ~ In ch (map fst own_escapes) -> hex_numeral h ch -> in_quotes ch (lit "\u{" ++ h ++ lit "}")
| quotes_self ch : 32 <= ch -> ch <> 34 -> ch <> 92 -> ch <> 127 -> in_quotes ch [ch].
Inductive rust_chars : text -> text -> Prop :=
| chars_nil : rust_chars [] []
| chars_cons ch s w r : in_quotes ch w -> rust_chars s r -> rust_chars (ch :: s) (w ++ r).
Definition rust_quoted (s w : text) : Prop := exists r, rust_chars s r /\ w = [34] ++ r ++ [34].
(** The names in brackets, separated by commas. *)
Inductive rust_names : list text -> text -> Prop :=
| names_one s w : rust_quoted s w -> rust_names [s] w
| names_more s w l r : rust_quoted s w -> rust_names l r -> rust_names (s :: l) (w ++ lit ", " ++ r).
Definition rust_list (l : list text) (w : text) : Prop := (l = [] /\ w = lit "[]") \/ exists r, rust_names l r /\ w = lit "[" ++ r ++ lit "]".

Inductive message : dterr -> text -> Prop :=
| says_scalar d who w : dtype_shown d w -> message (ExpectedScalar d who) (lit "type " ++ who ++ lit " requires a scalar (string) dtype, not " ++ w)
| says_record d w : dtype_shown d w -> message (ExpectedRecord d) (lit "expected a record type; got " ++ w)
| says_array got : message (ExpectedArray got) (lit "rust array types require an array dtype (got " ++ got ++ lit ")")
| says_length expected actual e a : shortest_numeral e expected -> shortest_numeral a actual ->
    message (WrongArrayLen expected actual) (lit "wrong array size (expected " ++ e ++ lit ", got " ++ a ++ lit ")")
| says_fields expected actual e a : rust_list expected e -> rust_list actual a ->
    message (WrongFields expected actual) (lit "field names do not match (expected " ++ e ++ lit ", got " ++ a ++ lit ")")
| says_type ts who how w : shown ts w -> message (BadScalar ts who how) (lit "cannot " ++ how ++ lit " type " ++ who ++ lit " with type-string '" ++ w ++ lit "'")
| says_size n ds : shortest_numeral ds n -> message (UsizeOverflow n) (lit "cannot cast " ++ ds ++ lit " as usize")
| says_pickled : message RequiresPickle (lit "this dtype uses a pickled array, which npyz's read/write APIs do not currently support").

(** What is said when the items of a file with dtype [d] are asked for as values of type [t]; objects come first. *)
Definition read_complaint (m : N) (t : rty) (d : dtype) (msg : text) : Prop :=
  (has_object d /\ message RequiresPickle msg) \/ (~ has_object d /\ exists e, rejects m Reading t d e /\ message e msg).
Definition write_complaint (m : N) (t : rty) (d : dtype) (msg : text) : Prop := exists e, rejects m Writing t d e /\ message e msg.
