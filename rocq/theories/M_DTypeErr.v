(** src/serialize/traits.rs:269-303: the messages of [DTypeError]. *)
From Verif Require Import M_Base M_Text M_TypeStr M_Header M_Serialize.
Open Scope N_scope.

(** [{:?}] of one character of a [str] (std, [char::escape_debug_ext] without single quotes).  Simplification: characters outside ASCII
    are printed as they are; std escapes those that are not printable. *)
Definition debug_char (ch : N) : text :=
  if ch =? 0 then lit "\0"
  else if ch =? 9 then lit "\t"
  else if ch =? 10 then lit "\n"
  else if ch =? 13 then lit "\r"
  else if (ch =? 34) || (ch =? 92) then [92; ch]
  else if (ch <? 32) || (ch =? 127) then lit "\u{" ++ hex ch ++ lit "}"
  else [ch].
(** [{:?}] of a [str] and of a [Vec<String>] (std) *)
Definition debug_str (s : text) : text := [34] ++ flat_map debug_char s ++ [34].
Fixpoint debug_strs_elements (l : list text) : text :=
  match l with
  | [] => []
  | [s] => debug_str s
  | s :: l' => debug_str s ++ lit ", " ++ debug_strs_elements l'
  end.
Definition debug_strs (l : list text) : text := lit "[" ++ debug_strs_elements l ++ lit "]".

(** src/serialize/traits.rs:269-303 *)
Definition dterr_display (e : dterr) : text :=
  match e with
  | ExpectedScalar d rust_type => lit "type " ++ rust_type ++ lit " requires a scalar (string) dtype, not " ++ descr d
  | ExpectedRecord d => lit "expected a record type; got " ++ descr d
  | ExpectedArray got => lit "rust array types require an array dtype (got " ++ got ++ lit ")"
  | WrongArrayLen expected actual => lit "wrong array size (expected " ++ dec expected ++ lit ", got " ++ dec actual ++ lit ")"
  | WrongFields expected actual => lit "field names do not match (expected " ++ debug_strs expected ++ lit ", got " ++ debug_strs actual ++ lit ")"
  | BadScalar t rust_type verb => lit "cannot " ++ verb ++ lit " type " ++ rust_type ++ lit " with type-string '" ++ type_str_display t ++ lit "'"
  | UsizeOverflow n => lit "cannot cast " ++ dec n ++ lit " as usize"
  | RequiresPickle => lit "this dtype uses a pickled array, which npyz's read/write APIs do not currently support"
  end.
