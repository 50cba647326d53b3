(** Every byte of a finished file, from the dtype, the order, the kind of writer, the shape and the encodings of the items alone. *)
From Verif Require Import M_Base M_TypeStr M_Header M_Read M_Write S_Text S_TypeStr S_Header S_DText.
Open Scope N_scope.

(** The inside of the shape tuple, and how many spaces follow the dictionary in place of digits: a file that grows reserves 20 columns for the
    dimension that grows.  With a shape given in advance each dimension is followed by a comma and a space; files that grow have the tuple
    as Python prints it. *)
Inductive shape_text : shape_hint -> order -> list N -> text -> N -> Prop :=
| shape_fixed o shape sh : listed (lit ", ") shape sh -> shape_text (NDimensional shape) o shape sh 0
| shape_1d o n ds : shortest_numeral ds n -> shape_text OneDimensional o [n] (ds ++ lit ",") (20 - lenN ds)
| shape_rows r n ds rs : shortest_numeral ds n -> shortest_numeral rs r ->
    shape_text (TwoDimensional r) OrderC [n; r] (ds ++ lit ", " ++ rs) (20 - lenN ds)
| shape_cols r n ds rs : shortest_numeral ds n -> shortest_numeral rs r ->
    shape_text (TwoDimensional r) OrderFortran [r; n] (rs ++ lit ", " ++ ds) (20 - lenN ds).

(** Magic string, version, length of the text in two or four bytes, the dictionary in UTF-8, spaces so that the data starts at a multiple of
    64 (fewer than 64 besides those in place of digits), line end, data.  Version 3 for text that is not ASCII; version 2 if the text does
    not fit version 1 (by the code's own, mistaken, measure: see C06). *)
Inductive laid_out (d : dtype) (o : order) (sh : text) (reserve : N) (payload : bytes) : bytes -> Prop :=
| the_file dt dict spaces major len :
    dtype_text d dt ->
    dict = utf8_string (lit "{'descr': " ++ dt
      ++ lit ", 'fortran_order': " ++ (match o with OrderC => lit "False" | OrderFortran => lit "True" end)
      ++ lit ", 'shape': (" ++ sh ++ lit "), }") ->
    spaces < 64 ->
    major = (if existsb (fun b => 128 <=? b) dict then 3 else if 0xfffffc00 <=? lenN dict + reserve then 2 else 1) ->
    lenN len = (if major =? 1 then 2 else 4) -> Forall (fun b => b < 256) len ->
    little_endian len = lenN dict + reserve + spaces + 1 ->
    (8 + lenN len + little_endian len) mod 64 = 0 ->
    laid_out d o sh reserve payload
      ([0x93] ++ lit "NUMPY" ++ [major; 0] ++ len ++ dict ++ repeatN 32 (reserve + spaces) ++ [10] ++ payload).
Definition finished_file (d : dtype) (o : order) (h : shape_hint) (shape : list N) (payload file : bytes) : Prop :=
  exists sh reserve, shape_text h o shape sh reserve /\ laid_out d o sh reserve payload file.
