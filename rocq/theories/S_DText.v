(** How a dtype and a header dictionary are written, independent of the model's printer. *)
From Verif Require Import M_Base M_TypeStr M_Header M_Read S_Text S_TypeStr.
Open Scope N_scope.

(** A Python string literal: quotes, backslashes and line ends are escaped, everything else stands for itself. *)
Definition escaped (c : N) : text :=
  if c =? 92 then [92; 92] else if c =? 39 then [92; 39] else if c =? 13 then [92; chr "r"] else if c =? 10 then [92; chr "n"] else [c].
Definition quoted (s : text) : text := lit "'" ++ flat_map escaped s ++ lit "'".

(** Numerals, each followed by a separator. *)
Inductive listed (sep : text) : list N -> text -> Prop :=
| listed_none : listed sep [] []
| listed_more n ds l t : shortest_numeral ds n -> listed sep l t -> listed sep (n :: l) (ds ++ sep ++ t).

(** A type string in quotes, or the list of the fields; an array field has its shape as third component.  (An array by itself cannot be written.) *)
Inductive dtype_text : dtype -> text -> Prop :=
| text_plain t s : spells s t -> canonical s -> dtype_text (DPlain t) (lit "'" ++ s ++ lit "'")
| text_record fs body : fields_text fs body -> dtype_text (DRecord fs) (lit "[" ++ body ++ lit "]")
with fields_text : list (text * dtype) -> text -> Prop :=
| fields_none : fields_text [] []
| fields_single name ty t fs rest : dtype_text ty t -> fields_text fs rest ->
    fields_text ((name, ty) :: fs) (lit "(" ++ quoted name ++ lit ", " ++ t ++ lit "), " ++ rest)
| fields_array name shape ty t sh fs rest : shape <> [] -> dtype_text ty t -> listed (lit ",") shape sh -> fields_text fs rest ->
    fields_text ((name, fold_right DArray ty shape) :: fs) (lit "(" ++ quoted name ++ lit ", " ++ t ++ lit ", (" ++ sh ++ lit ")), " ++ rest).

(** The dictionary. *)
Inductive dictionary (d : dtype) (o : order) (shape : list N) : text -> Prop :=
| the_dictionary dt sh : dtype_text d dt -> listed (lit ", ") shape sh ->
    dictionary d o shape (lit "{'descr': " ++ dt
      ++ lit ", 'fortran_order': " ++ (match o with OrderC => lit "False" | OrderFortran => lit "True" end)
      ++ lit ", 'shape': (" ++ sh ++ lit "), }").
