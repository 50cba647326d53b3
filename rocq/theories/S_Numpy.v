(** The files NumPy writes, from NumPy's side: [numpy/lib/format.py] ([dtype_to_descr], [_write_array_header], [_wrap_header], [write_array]),
    [dtype.str], [dtype.descr], and Python's [repr].  None of this is in /repo; it is a description of the programs whose files npyz is for.
    (dec is the decimal numeral, see C48.) *)
From Verif Require Import M_Base M_Text M_TypeStr M_PyLit M_Header M_Read S_Text S_TypeStr S_Header.
Open Scope N_scope.

(** * Python's [repr] *)
Definition hex_char (d : N) : N := if d <? 10 then 48 + d else 87 + d.
Fixpoint hex_text (digits : nat) (n : N) : text :=
  match digits with O => [] | S k => hex_text k (n / 16) ++ [hex_char (n mod 16)] end.
(** A character of a string in quotes [q].  Which characters beyond ASCII are printable depends on the version of Python. *)
Definition repr_char (printable : N -> bool) (q c : N) : text :=
  if (c =? 92) || (c =? q) then [92; c]
  else if c =? 9 then [92; chr "t"] else if c =? 10 then [92; chr "n"] else if c =? 13 then [92; chr "r"]
  else if (c <? 32) || (c =? 127) then 92 :: chr "x" :: hex_text 2 c
  else if (c <? 127) || printable c then [c]
  else if c <? 256 then 92 :: chr "x" :: hex_text 2 c
  else if c <? 65536 then 92 :: chr "u" :: hex_text 4 c
  else 92 :: chr "U" :: hex_text 8 c.
(** Double quotes are used for a string that has single quotes in it and no double quotes. *)
Definition repr_quote (s : text) : N := if existsb (N.eqb 39) s && negb (existsb (N.eqb 34) s) then 34 else 39.
Definition repr_string (printable : N -> bool) (s : text) : text :=
  let q := repr_quote s in [q] ++ flat_map (repr_char printable q) s ++ [q].
Fixpoint separated (l : list text) : text :=
  match l with [] => [] | [x] => x | x :: l' => x ++ lit ", " ++ separated l' end.
Fixpoint py_repr (printable : N -> bool) (v : value) : text :=
  match v with
  | VString s => repr_string printable s
  | VInteger z => match z with Zneg p => lit "-" ++ dec (Npos p) | _ => dec (Z.to_N z) end
  | VBool b => if b then lit "True" else lit "False"
  | VNone => lit "None"
  | VTuple [x] => lit "(" ++ py_repr printable x ++ lit ",)"
  | VTuple l => lit "(" ++ separated (map (py_repr printable) l) ++ lit ")"
  | VList l => lit "[" ++ separated (map (py_repr printable) l) ++ lit "]"
  | VSet [] => lit "set()"
  | VSet l => lit "{" ++ separated (map (py_repr printable) l) ++ lit "}"
  | VDict l => lit "{" ++ separated (map (fun p => py_repr printable (fst p) ++ lit ": " ++ py_repr printable (snd p)) l) ++ lit "}"
  end.
(** Strings of characters (no surrogates), no empty set (whose [repr] is a call). *)
Fixpoint py_plain (v : value) : Prop :=
  match v with
  | VString s => Forall (fun c => scalar_value c = true) s
  | VTuple l | VList l => (fix go (l : list value) : Prop := match l with [] => True | x :: l' => py_plain x /\ go l' end) l
  | VSet l => l <> [] /\ (fix go (l : list value) : Prop := match l with [] => True | x :: l' => py_plain x /\ go l' end) l
  | VDict l => (fix go (l : list (value * value)) : Prop := match l with [] => True | p :: l' => py_plain (fst p) /\ py_plain (snd p) /\ go l' end) l
  | _ => True
  end.

(** * NumPy's dtypes *)
Inductive np_scalar :=
| NpBool
| NpInt (signed : bool) (size : N)           (* 1, 2, 4, 8 *)
| NpFloat (size : N)                         (* 2, 4, 8; long doubles have 12 or 16 *)
| NpComplex (size : N)                       (* 8, 16; 24 or 32 *)
| NpBytes (n : N) | NpUnicode (n : N) | NpVoid (n : N)
| NpObject
| NpTime (difference : bool) (unit : option (N * time_units)).    (* a multiple of a unit, or none *)
Definition np_sizes (s : np_scalar) : Prop :=
  match s with
  | NpInt _ n => In n [1; 2; 4; 8]
  | NpFloat n => In n [2; 4; 8; 12; 16]
  | NpComplex n => In n [8; 16; 24; 32]
  | NpBytes n | NpUnicode n | NpVoid n => n < 2 ^ 64
  | NpTime _ (Some (k, _)) => 1 <= k
  | _ => True
  end.
(** [dtype.str] *)
Definition np_mark (big : bool) (s : np_scalar) : text :=
  match s with
  | NpBool | NpBytes _ | NpVoid _ | NpObject | NpInt _ 1 => lit "|"
  | _ => if big then lit ">" else lit "<"
  end.
Definition np_unit (u : time_units) : text :=
  match u with
  | Year => lit "Y" | Month => lit "M" | Week => lit "W" | Day => lit "D" | Hour => lit "h" | Minute => lit "m" | Second => lit "s"
  | Millisecond => lit "ms" | Microsecond => lit "us" | Nanosecond => lit "ns" | Picosecond => lit "ps" | Femtosecond => lit "fs" | Attosecond => lit "as"
  end.
Definition np_code (s : np_scalar) : text :=
  match s with
  | NpBool => lit "b1"
  | NpInt signed n => (if signed then lit "i" else lit "u") ++ dec n
  | NpFloat n => lit "f" ++ dec n
  | NpComplex n => lit "c" ++ dec n
  | NpBytes n => lit "S" ++ dec n
  | NpUnicode n => lit "U" ++ dec n
  | NpVoid n => lit "V" ++ dec n
  | NpObject => lit "O"
  | NpTime difference unit => (if difference then lit "m8" else lit "M8")
      ++ match unit with None => [] | Some (k, u) => lit "[" ++ (if k =? 1 then [] else dec k) ++ np_unit u ++ lit "]" end
  end.
Definition np_str (big : bool) (s : np_scalar) : text := np_mark big s ++ np_code s.

(** A field: perhaps a title, a name, a type, the shape of an array member.  Padding in aligned records is a field without a name, of type [V]. *)
Record np_field (D : Type) := { npf_title : option text; npf_name : text; npf_type : D; npf_shape : list N }.
Arguments npf_title {D}. Arguments npf_name {D}. Arguments npf_type {D}. Arguments npf_shape {D}.
Inductive np_dtype :=
| NpPlain (big : bool) (s : np_scalar)
| NpRecord (fields : list (np_field np_dtype)).
(** [dtype_to_descr], that is [dtype.str] or [dtype.descr] *)
Definition np_tuple (l : list N) : value := VTuple (map (fun n => VInteger (Z.of_N n)) l).
Fixpoint np_value (d : np_dtype) : value :=
  match d with
  | NpPlain big s => VString (np_str big s)
  | NpRecord fields =>
    VList (map (fun f =>
      VTuple ((match npf_title f with Some t => VTuple [VString t; VString (npf_name f)] | None => VString (npf_name f) end)
              :: np_value (npf_type f) :: match npf_shape f with [] => [] | sh => [np_tuple sh] end)) fields)
  end.

(** * Files *)
Definition np_header (printable : N -> bool) (d : np_dtype) (fortran : bool) (shape : list N) : text :=
  lit "{'descr': " ++ py_repr printable (np_value d) ++ lit ", 'fortran_order': " ++ py_repr printable (VBool fortran)
  ++ lit ", 'shape': " ++ py_repr printable (np_tuple shape) ++ lit ", }".
(** Versions 1 and 2 are in Latin-1, version 3 in UTF-8. *)
Definition np_encoded (major : N) (txt : text) (bs : bytes) : Prop :=
  (major = 1 \/ major = 2) /\ Forall (fun c => c < 256) txt /\ bs = txt \/ major = 3 /\ bs = utf8_string txt.
(** How many spaces fill up the header differs between versions of NumPy. *)
Definition np_file (printable : N -> bool) (major : N) (d : np_dtype) (fortran : bool) (shape : list N) (data file : bytes) : Prop :=
  exists txt pad len, np_encoded major (np_header printable d fortran shape) txt
    /\ lenN len = (if major =? 1 then 2 else 4) /\ Forall (fun b => b < 256) len /\ little_endian len = lenN txt + pad + 1
    /\ file = [0x93] ++ lit "NUMPY" ++ [major; 0] ++ len ++ txt ++ repeatN 32 pad ++ [10] ++ data.

Definition np_order (fortran : bool) : order := if fortran then OrderFortran else OrderC.

(** * What npyz makes of it *)
(** No titles; no times without unit or in multiples of a unit; no long doubles of twelve bytes. *)
Definition known_scalar (s : np_scalar) : Prop :=
  match s with
  | NpFloat n => n <> 12
  | NpComplex n => n <> 24
  | NpTime _ unit => exists u, unit = Some (1, u)
  | _ => True
  end.
Fixpoint known (d : np_dtype) : Prop :=
  match d with
  | NpPlain _ s => known_scalar s
  | NpRecord fields =>
    (fix go (fs : list (np_field np_dtype)) : Prop := match fs with [] => True | f :: fs' => (npf_title f = None /\ known (npf_type f)) /\ go fs' end) fields
  end.
Definition np_type_str (big : bool) (s : np_scalar) : type_str :=
  let order := if big then Big else Little in
  let scalar e code n u := {| ts_endianness := e; ts_char := code; ts_size := n; ts_units := u |} in
  match s with
  | NpBool => scalar Irrelevant TBool 1 None
  | NpInt signed n => scalar (if n =? 1 then Irrelevant else order) (if signed then TInt else TUint) n None
  | NpFloat n => scalar order TFloat n None
  | NpComplex n => scalar order TComplex n None
  | NpBytes n => scalar Irrelevant TByteStr n None
  | NpUnicode n => scalar order TUnicodeStr n None
  | NpVoid n => scalar Irrelevant TRawData n None
  | NpObject => scalar Irrelevant TObject 0 None
  | NpTime difference unit => scalar order (if difference then TTimeDelta else TDateTime) 8 (match unit with Some (_, u) => Some u | None => None end)
  end.
Fixpoint np_meaning (d : np_dtype) : dtype :=
  match d with
  | NpPlain big s => DPlain (np_type_str big s)
  | NpRecord fields => DRecord (map (fun f => (npf_name f, fold_right DArray (np_meaning (npf_type f)) (npf_shape f))) fields)
  end.
(** Names and titles are strings of characters, sizes are what NumPy has. *)
Fixpoint np_ok (d : np_dtype) : Prop :=
  match d with
  | NpPlain _ s => np_sizes s
  | NpRecord fields =>
    (fix go (fs : list (np_field np_dtype)) : Prop :=
       match fs with
       | [] => True
       | f :: fs' => (Forall (fun c => scalar_value c = true) (npf_name f) /\ (forall t, npf_title f = Some t -> Forall (fun c => scalar_value c = true) t)
                      /\ Forall (fun n => n < 2 ^ 64) (npf_shape f) /\ np_ok (npf_type f)) /\ go fs'
       end) fields
  end.
(** All names (and titles) are ASCII. *)
Fixpoint np_ascii (d : np_dtype) : Prop :=
  match d with
  | NpPlain _ _ => True
  | NpRecord fields =>
    (fix go (fs : list (np_field np_dtype)) : Prop :=
       match fs with
       | [] => True
       | f :: fs' => (Forall (fun c => c < 128) (npf_name f) /\ (forall t, npf_title f = Some t -> Forall (fun c => c < 128) t) /\ np_ascii (npf_type f)) /\ go fs'
       end) fields
  end.
