(** What the theorems about other parsers of Python literals (M_Literal.v) speak of: independent of the functions there. *)
From Verif Require Import M_Base M_TypeStr M_PyLit M_IO M_Header M_Read M_Serialize M_NpyReader M_Literal S_Text S_TypeStr S_Python S_Header.
Open Scope N_scope.

(** The literals of the grammar S_Python.v among all. *)
Fixpoint as_literal (v : value) : pyvalue :=
  match v with
  | VString s => LString s
  | VInteger z => LInteger z
  | VTuple l => LTuple (map as_literal l)
  | VList l => LList (map as_literal l)
  | VDict l => LDict (map (fun p => (as_literal (fst p), as_literal (snd p))) l)
  | VSet l => LSet (map as_literal l)
  | VBool b => LBool b
  | VNone => LNone
  end.
(** All that has to be known of a parser for most purposes: texts of that grammar are read as what they denote.  Of all other texts it may make
    anything. *)
Definition understands (p : parser) : Prop := forall src v, python_literal src v -> p src = Parsed (as_literal v).

(** The text that a parser is given of a header: all of it but a newline at the end. *)
Definition given (txt : bytes) (src : text) : Prop :=
  Forall (fun ch => scalar_value ch = true) src /\ (txt = utf8_string src ++ [10] \/ (txt = utf8_string src /\ forall s, src <> s ++ [10])).

(** Bytes, floats and complex numbers replaced by [None]. *)
Fixpoint none_for_others (v : pyvalue) : value :=
  match v with
  | LString s => VString s
  | LInteger z => VInteger z
  | LTuple l => VTuple (map none_for_others l)
  | LList l => VList (map none_for_others l)
  | LDict l => VDict (map (fun p => (none_for_others (fst p), none_for_others (snd p))) l)
  | LSet l => VSet (map none_for_others l)
  | LBool b => VBool b
  | LBytes _ | LFloat _ | LComplex _ _ | LNone => VNone
  end.

(** What a header dictionary says (as S_Dict.v, for all literals). *)
Definition lit_last (key : text) (pairs : list (pyvalue * pyvalue)) (v : pyvalue) : Prop :=
  exists l1 l2, pairs = l1 ++ (LString key, v) :: l2 /\ ~ In (LString key) (map fst l2).
Definition lit_shape_value (v : pyvalue) (shape : list N) : Prop :=
  exists l, (v = LList l \/ v = LTuple l) /\ Forall2 (fun x n => x = LInteger (Z.of_N n) /\ n < 2 ^ 64) l shape.
Inductive lit_describes : pyvalue -> dtype -> Prop :=
| lit_plain s t : spells s t -> lit_describes (LString s) (DPlain t)
| lit_record l fs : lit_fields l fs -> lit_describes (LList l) (DRecord fs)
with lit_fields : list pyvalue -> list (text * dtype) -> Prop :=
| lit_nil : lit_fields [] []
| lit_cons v l name d fs : lit_field v name d -> lit_fields l fs -> lit_fields (v :: l) ((name, d) :: fs)
with lit_field : pyvalue -> text -> dtype -> Prop :=
| lit_pair v name dv d : (v = LTuple [LString name; dv] \/ v = LList [LString name; dv]) -> lit_describes dv d -> lit_field v name d
| lit_triple v name dv sv d shape : (v = LTuple [LString name; dv; sv] \/ v = LList [LString name; dv; sv]) ->
    lit_describes dv d -> lit_shape_value sv shape -> lit_field v name (fold_right DArray d shape).
Definition lit_header_says (hv : pyvalue) (d : dtype) (shape : list N) (o : order) : Prop :=
  exists pairs dv sv fortran,
    hv = LDict pairs
    /\ Forall (fun p => exists s, fst p = LString s) pairs
    /\ lit_last (lit "descr") pairs dv /\ lit_describes dv d
    /\ lit_last (lit "shape") pairs sv /\ lit_shape_value sv shape
    /\ lit_last (lit "fortran_order") pairs (LBool fortran)
    /\ o = (if fortran then OrderFortran else OrderC).

(** Reading back with such a parser (as [reads_as] in S_Write.v). *)
Definition reads_with (p : parser) (c : cfg) (t : rty) (data : bytes) (pos : N) (d : dtype) (o : order) (shape : list N) (vs : list val) : Prop :=
  exists f src, npy_new_with p c {| cur_data := data; cur_pos := pos |} = (Ok f, src)
  /\ h_dtype (nf_header f) = d /\ h_order (nf_header f) = o /\ h_shape (nf_header f) = shape
  /\ fst (npy_into_vec c t f) = Ok vs.
(** The strings inside a literal.  (A Rust [String] has scalar values only.) *)
Fixpoint texts (v : pyvalue) : list text :=
  match v with
  | LString s => [s]
  | LTuple l | LList l | LSet l => flat_map texts l
  | LDict l => flat_map (fun p => texts (fst p) ++ texts (snd p)) l
  | _ => []
  end.
Definition rust_strings (p : parser) : Prop := forall src v s, p src = Parsed v -> In s (texts v) -> Forall (fun ch => scalar_value ch = true) s.
