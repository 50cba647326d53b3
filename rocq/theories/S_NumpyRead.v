(** The files NumPy reads: [numpy/lib/format.py] ([_read_array_header], [descr_to_dtype]), from NumPy's side.  None of this is in /repo. *)
From Verif Require Import M_Base M_Text M_TypeStr M_PyLit M_Header M_Read M_Serialize S_Text S_TypeStr S_Python S_Header S_Dict S_Numpy.
Open Scope N_scope.

(** [numpy.dtype] of a type string: the code of a scalar after a mark; any mark will do where the order of bytes does not matter. *)
Definition orderless (s : np_scalar) : Prop := np_mark true s = lit "|".
(** A type string, or a list of fields: tuples of a name, a type, perhaps a shape.  Names are distinct and not empty.  (An empty name means padding
    or asks for a generated name; titles are left out; NumPy's limits on sizes, which depend on its version and the platform, are too.) *)
Inductive np_type : value -> np_dtype -> Prop :=
| np_string mark big s : In mark ["<"; ">"; "|"]%string -> np_sizes s -> lit mark = np_mark big s \/ orderless s ->
    np_type (VString (lit mark ++ np_code s)) (NpPlain big s)
| np_list l fs : np_fields l fs -> NoDup (map npf_name fs) -> Forall (fun f => npf_name f <> []) fs -> np_type (VList l) (NpRecord fs)
with np_fields : list value -> list (np_field np_dtype) -> Prop :=
| np_fields_nil : np_fields [] []
| np_fields_pair name v d l fs : np_type v d -> np_fields l fs ->
    np_fields (VTuple [VString name; v] :: l) ({| npf_title := None; npf_name := name; npf_type := d; npf_shape := [] |} :: fs)
| np_fields_triple name v d shape l fs : np_type v d -> np_fields l fs ->
    np_fields (VTuple [VString name; v; np_tuple shape] :: l) ({| npf_title := None; npf_name := name; npf_type := d; npf_shape := shape |} :: fs).

(** The header: Latin-1 or UTF-8, without null characters (which Python's parser refuses), a dictionary of just the three keys. *)
Definition np_loads (major : N) (src : text) (d : np_dtype) (fortran : bool) (shape : list N) (data file : bytes) : Prop :=
  exists len txt v pairs dv,
    file = [0x93] ++ lit "NUMPY" ++ [major; 0] ++ len ++ txt ++ data
    /\ lenN len = (if major =? 1 then 2 else 4) /\ little_endian len = lenN txt
    /\ ((major = 1 \/ major = 2) /\ src = txt \/ major = 3 /\ Forall (fun ch => scalar_value ch = true) src /\ txt = utf8_string src)
    /\ ~ In 0 src
    /\ (python_literal src v \/ exists body, src = body ++ [10] /\ python_literal body v)
    /\ v = VDict pairs /\ Forall (fun p => In (fst p) [VString (lit "descr"); VString (lit "fortran_order"); VString (lit "shape")]) pairs
    /\ last_value (lit "descr") pairs dv /\ np_type dv d
    /\ last_value (lit "fortran_order") pairs (VBool fortran) /\ last_value (lit "shape") pairs (np_tuple shape).

(** * npyz's dtypes *)
(** The byte order mark of a type without order does not matter. *)
Definition normal_type (t : type_str) : type_str :=
  {| ts_endianness := match ts_char t with
                      | TBool | TByteStr | TRawData | TObject => Irrelevant
                      | TInt | TUint => if ts_size t =? 1 then Irrelevant else ts_endianness t
                      | _ => ts_endianness t
                      end;
     ts_char := ts_char t; ts_size := ts_size t; ts_units := ts_units t |}.
Fixpoint normal (d : dtype) : dtype :=
  match d with
  | DPlain t => DPlain (normal_type t)
  | DArray n d' => DArray n (normal d')
  | DRecord fs => DRecord (map (fun f => (fst f, normal (snd f))) fs)
  end.
(** What the names of each record are. *)
Fixpoint all_records (P : list text -> Prop) (d : dtype) : Prop :=
  match d with
  | DPlain _ => True
  | DArray _ d' => all_records P d'
  | DRecord fs => P (map fst fs) /\ (fix go (fs : list (text * dtype)) : Prop := match fs with [] => True | f :: fs' => all_records P (snd f) /\ go fs' end) fs
  end.
Definition distinct_names (d : dtype) : Prop := all_records (@NoDup text) d.
Definition named (d : dtype) : Prop := all_records (Forall (fun name => name <> [])) d.
Definition no_null (d : dtype) : Prop := all_records (Forall (fun name => ~ In 0 name)) d.

(** Names of the fields of structs in Rust, as [derive] gives them to npyz: not empty, distinct, without null characters. *)
Fixpoint rust_names (t : rty) : Prop :=
  match t with
  | RArray _ t' => rust_names t'
  | RStruct fs => NoDup (map fst fs) /\ Forall (fun name => name <> [] /\ ~ In 0 name) (map fst fs)
      /\ (fix go (fs : list (text * rty)) : Prop := match fs with [] => True | f :: fs' => rust_names (snd f) /\ go fs' end) fs
  | _ => True
  end.

(** NumPy's own records: no titles, names not empty (no padding) and distinct (NumPy makes no others). *)
Fixpoint np_regular (d : np_dtype) : Prop :=
  match d with
  | NpPlain _ _ => True
  | NpRecord fields => NoDup (map npf_name fields) /\ Forall (fun f => npf_name f <> [] /\ npf_title f = None) fields
      /\ (fix go (fs : list (np_field np_dtype)) : Prop := match fs with [] => True | f :: fs' => np_regular (npf_type f) /\ go fs' end) fields
  end.
