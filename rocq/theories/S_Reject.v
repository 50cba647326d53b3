(** What is wrong with a dtype, for a Rust type that does not accept it: the errors of [src/serialize/traits.rs]. *)
From Verif Require Import M_Base M_Text M_TypeStr M_Header M_Serialize S_Elem.
Open Scope N_scope.

Definition not_composite (t : rty) : Prop := (forall n t', t <> RArray n t') /\ (forall fs, t <> RStruct fs).
(** Types for which a size beyond [usize] is reported even if the type code is wrong as well. *)
Definition size_first (dir : direction) (t : rty) : Prop :=
  match t, dir with
  | (RVecU8 | RFixedBytes _ | RArrU8 _), _ => True
  | (RString | RArrU32 _ | RArrChar _ | RArrString _), Reading => True
  | _, _ => False
  end.

(** What the Rust types are called in messages, as rustc prints them: with the path of the module that defines them. *)
Definition own_name (t : rty) : text :=
  match t with
  | RInt true W1 => lit "i8" | RInt true W2 => lit "i16" | RInt true W4 => lit "i32" | RInt true W8 => lit "i64"
  | RInt false W1 => lit "u8" | RInt false W2 => lit "u16" | RInt false W4 => lit "u32" | RInt false W8 => lit "u64"
  | RFloat F2 => lit "half::binary16::f16" | RFloat F4 => lit "f32" | RFloat F8 => lit "f64"
  | RBool => lit "bool"
  | RComplex X4 => lit "num_complex::Complex<f32>" | RComplex X8 => lit "num_complex::Complex<f64>"
  | RVecU8 => lit "alloc::vec::Vec<u8>" | RVecU32 => lit "alloc::vec::Vec<u32>" | RVecChar => lit "alloc::vec::Vec<char>"
  | RString => lit "alloc::string::String"
  | RFixedBytes n => lit "npyz::serialize::slice::fixed_size::FixedSizeBytes<" ++ dec n ++ lit ">"
  | RArrU8 n => lit "arrayvec::arrayvec::ArrayVec<u8, " ++ dec n ++ lit ">"
  | RArrU32 n => lit "arrayvec::arrayvec::ArrayVec<u32, " ++ dec n ++ lit ">"
  | RArrChar n => lit "arrayvec::arrayvec::ArrayVec<char, " ++ dec n ++ lit ">"
  | RArrString n => lit "arrayvec::array_string::ArrayString<" ++ dec n ++ lit ">"
  | RArray _ _ | RStruct _ => []
  end.
(** Reading names the type itself; writing names the slice behind a vector or a string, except for vectors of bytes of bounded length. *)
Definition called (dir : direction) (t : rty) : text :=
  match dir, t with
  | Writing, RVecU8 => lit "[u8]"
  | Writing, (RVecU32 | RArrU32 _) => lit "[u32]"
  | Writing, (RVecChar | RArrChar _) => lit "[char]"
  | Writing, (RString | RArrString _) => lit "str"
  | _, _ => own_name t
  end.
Definition verb (dir : direction) : text := match dir with Reading => lit "read" | Writing => lit "write" end.

(** [rejects m dir t d e]: [e] describes the first thing wrong with [d] (fields in order, outside before inside). *)
Inductive rejects (m : N) (dir : direction) : rty -> dtype -> dterr -> Prop :=
| rejects_composite t d : not_composite t -> (forall ts, d <> DPlain ts) -> rejects m dir t d (ExpectedScalar d (called dir t))
| rejects_scalar t ts : not_composite t -> ~ scalar_ok dir t (ts_char ts) (ts_size ts) -> (size_first dir t -> ts_size ts <= m) ->
    rejects m dir t (DPlain ts) (BadScalar ts (called dir t) (verb dir))
| rejects_size t ts : is_string_type t = true -> m < ts_size ts -> scalar_ok dir t (ts_char ts) (ts_size ts) \/ size_first dir t ->
    rejects m dir t (DPlain ts) (UsizeOverflow (ts_size ts))
| rejects_not_array n t ts : rejects m dir (RArray n t) (DPlain ts) (ExpectedArray (lit "a scalar"))
| rejects_record n t ds : rejects m dir (RArray n t) (DRecord ds) (ExpectedArray (lit "a record"))
| rejects_length n t k d : n <> k -> rejects m dir (RArray n t) (DArray k d) (WrongArrayLen n k)
| rejects_item n t d e : rejects m dir t d e -> rejects m dir (RArray n t) (DArray n d) e
| rejects_not_record fs d : (forall ds, d <> DRecord ds) -> rejects m dir (RStruct fs) d (ExpectedRecord d)
| rejects_names fs ds : map fst ds <> map fst fs -> rejects m dir (RStruct fs) (DRecord ds) (WrongFields (map fst ds) (map fst fs))
| rejects_field fs name t fs' ds d ds' e : map fst ds = map fst fs -> map fst ds' = map fst fs' ->
    Forall2 (fun f g => accepts m dir (snd f) (snd g)) fs ds -> rejects m dir t d e ->
    rejects m dir (RStruct (fs ++ (name, t) :: fs')) (DRecord (ds ++ (name, d) :: ds')) e.
