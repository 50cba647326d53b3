(** src/type_str.rs:441-465: the messages of refused type strings. *)
From Verif Require Import M_Base M_Text M_TypeStr.
Open Scope N_scope.

(** [{:?}] of a [&[u64]] (std): the elements between brackets, separated by a comma and a space. *)
Fixpoint debug_elements (l : list N) : text :=
  match l with
  | [] => []
  | [n] => dec n
  | n :: l' => dec n ++ lit ", " ++ debug_elements l'
  end.
Definition debug_slice (l : list N) : text := lit "[" ++ debug_elements l ++ lit "]".

(** src/type_str.rs:441-465.  [Panic]: [valid_sizes().unwrap()] on [None].  The integer comes from [u64::from_str] on digits alone, so
    its only error is an overflow; the message is std's. *)
Definition parse_error_display (e : ts_error) : res text :=
  match e with
  | SyntaxError => Ok (lit "Invalid type-string")
  | InvalidEndianness ty => Ok (lit "Type string '" ++ type_str_display ty ++ lit "' has invalid endianness")
  | InvalidSize ty =>
    match valid_sizes (ts_char ty) with
    | None => Panic
    | Some l => Ok (lit "Type string '" ++ type_str_display ty ++ lit "' has invalid size." ++ lit " Valid sizes are: " ++ debug_slice l)
    end
  | MissingOrUnexpectedUnits ty =>
    if has_units (ts_char ty) then Ok (lit "Type string '" ++ type_str_display ty ++ lit "' is missing time units.")
    else Ok (lit "Unexpected time units in type string '" ++ type_str_display ty ++ lit "'.")
  | ParseIntError => Ok (lit "number too large to fit in target type")
  end.
