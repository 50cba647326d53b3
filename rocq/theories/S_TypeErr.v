(** What is said about a string that is not a type string, independent of the model's parser and printer. *)
From Verif Require Import M_Base M_TypeStr S_Text S_TypeStr.
Open Scope N_scope.

(** [s] begins like a type string: mark, code, and as many digits as there are (none for objects, at least one otherwise). *)
Definition begins (s : text) (e : endianness) (c : type_char) (size rest : text) : Prop :=
  exists mark code, s = lit mark ++ lit code ++ size ++ rest /\ In (mark, e) mark_table /\ In (code, c) code_table
  /\ (c = TObject <-> size = [])
  /\ (forall d, In d size -> 48 <= d <= 57) /\ (forall d r, rest = d :: r -> ~ 48 <= d <= 57).

(** [rest] is a unit in brackets, or nothing. *)
Definition unit_text (rest : text) (u : option time_units) : Prop :=
  match u with None => rest = [] | Some u => exists name, In (name, u) unit_table /\ rest = lit "[" ++ lit name ++ lit "]" end.

(** [s] has the form of the type string [t], which may still be impossible. *)
Definition has_form (s : text) (t : type_str) : Prop :=
  exists size rest, begins s (ts_endianness t) (ts_char t) size rest
  /\ positional size = ts_size t /\ ts_size t < 2 ^ 64 /\ unit_text rest (ts_units t).

(** How [t] is shown in messages: always [S], no redundant zeros. *)
Definition shown (t : type_str) (w : text) : Prop :=
  exists mark code size unit, w = lit mark ++ lit code ++ size ++ unit
  /\ In (mark, ts_endianness t) mark_table /\ In (code, ts_char t) code_table /\ code <> "a"%string
  /\ (if match ts_char t with TObject => true | _ => false end then size = [] else shortest_numeral size (ts_size t))
  /\ unit_text unit (ts_units t).

(** Byte order matters for everything of more than one byte but byte strings, raw data and objects, and for all unicode strings. *)
Definition lacks_order (t : type_str) : Prop :=
  ts_endianness t = Irrelevant /\ ts_char t <> TByteStr /\ ts_char t <> TRawData /\ ts_char t <> TObject
  /\ (ts_char t = TUnicodeStr \/ ts_size t <> 1).

(** The sizes there are, and how they are listed. *)
Definition size_table : list (type_char * list N * string) :=
  [(TBool, [1], "[1]"); (TInt, [1; 2; 4; 8], "[1, 2, 4, 8]"); (TUint, [1; 2; 4; 8], "[1, 2, 4, 8]"); (TFloat, [2; 4; 8; 16], "[2, 4, 8, 16]");
   (TComplex, [8; 16; 32], "[8, 16, 32]"); (TTimeDelta, [8], "[8]"); (TDateTime, [8], "[8]")]%string.
Definition wrong_size (t : type_str) (sizes : string) : Prop := exists l, In (ts_char t, l, sizes) size_table /\ ~ In (ts_size t) l.

Definition timed (c : type_char) : Prop := c = TTimeDelta \/ c = TDateTime.

(** The first defect is the one reported: form, number, unit, byte order, size, presence of a unit. *)
Inductive complaint (s : text) : text -> Prop :=
| no_form : (forall e c size rest, ~ begins s e c size rest) -> complaint s (lit "Invalid type-string")
| too_large e c size rest : begins s e c size rest -> 2 ^ 64 <= positional size -> complaint s (lit "number too large to fit in target type")
| no_unit e c size rest : begins s e c size rest -> positional size < 2 ^ 64 -> (forall u, ~ unit_text rest u) -> complaint s (lit "Invalid type-string")
| no_order t w : has_form s t -> shown t w -> lacks_order t ->
    complaint s (lit "Type string '" ++ w ++ lit "' has invalid endianness")
| no_size t w sizes : has_form s t -> shown t w -> ~ lacks_order t -> wrong_size t sizes ->
    complaint s (lit "Type string '" ++ w ++ lit "' has invalid size. Valid sizes are: " ++ lit sizes)
| units_missing t w : has_form s t -> shown t w -> ~ lacks_order t -> (forall sizes, ~ wrong_size t sizes) -> timed (ts_char t) -> ts_units t = None ->
    complaint s (lit "Type string '" ++ w ++ lit "' is missing time units.")
| units_unexpected t w : has_form s t -> shown t w -> ~ lacks_order t -> (forall sizes, ~ wrong_size t sizes) -> ~ timed (ts_char t) -> ts_units t <> None ->
    complaint s (lit "Unexpected time units in type string '" ++ w ++ lit "'.").
