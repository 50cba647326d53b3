(** What is wrong with a file that cannot be opened: its first defect, in the order in which a file is read, and the message for it.
    Independent of the model's readers and converters ([complaint] is the same for type strings). *)
From Verif Require Import M_Base M_TypeStr M_PyLit M_Header M_Read S_Text S_TypeStr S_TypeErr S_Python S_Shape S_Header S_Elem S_Dict S_Open.
Open Scope N_scope.

(** A list or tuple with the given elements. *)
Definition items_of (v : value) (l : list value) : Prop := v = VList l \/ v = VTuple l.

(** An axis length. *)
Inductive axis_defect : value -> text -> Prop :=
| axis_kind x : (forall z, x <> VInteger z) -> axis_defect x (lit "dimension must be an integer")
| axis_negative z : (z < 0)%Z -> axis_defect (VInteger z) (lit "dimension cannot be negative")
| axis_large z : (2 ^ 64 <= z)%Z -> axis_defect (VInteger z) (lit "dimension cannot be larger than u64").

(** A shape: no sequence, or its first impossible axis. *)
Inductive shape_defect : value -> text -> Prop :=
| shape_kind v : (forall l, ~ items_of v l) -> shape_defect v (lit "shape must be list or tuple")
| shape_axis v before x after ns msg : items_of v (before ++ x :: after) -> shape_value (VList before) ns -> axis_defect x msg -> shape_defect v msg.

(** A type description: neither string nor list, a bad type string, or the first bad field. *)
Inductive type_defect : value -> text -> Prop :=
| type_kind v : (forall s, v <> VString s) -> (forall l, v <> VList l) -> type_defect v (lit "must be string or list")
| type_string s msg : complaint s msg -> type_defect (VString s) (lit "invalid type string: " ++ msg)
| type_field before x after fs msg : describes_fields before fs -> field_defect x msg -> type_defect (VList (before ++ x :: after)) msg
with field_defect : value -> text -> Prop :=
| field_kind x : (forall l, ~ items_of x l) -> field_defect x (lit "list must contain list or tuple")
| field_items x l : items_of x l -> lenN l <> 2 -> lenN l <> 3 -> field_defect x (lit "list entry must contain 2 or 3 items")
| field_name x name dv more : items_of x (name :: dv :: more) -> lenN more <= 1 -> (forall s, name <> VString s) ->
    field_defect x (lit "list entry must contain a string for id")
| field_type x name dv more msg : items_of x (VString name :: dv :: more) -> lenN more <= 1 -> type_defect dv msg -> field_defect x msg
| field_shape x name dv sv d msg : items_of x [VString name; dv; sv] -> describes dv d -> shape_defect sv msg -> field_defect x msg.

(** The literal in the header: not a dict, a key that is no string, then order, shape and type, each missing or bad, then the item size. *)
Definition named (pairs : list (value * value)) : Prop := Forall (fun p => exists s, fst p = VString s) pairs.
Definition absent (key : text) (pairs : list (value * value)) : Prop := ~ In (VString key) (map fst pairs).
Inductive header_defect (c : cfg) : value -> text -> Prop :=
| header_kind v : (forall pairs, v <> VDict pairs) -> header_defect c v (lit "expected a python dict literal")
| header_key pairs : ~ named pairs -> header_defect c (VDict pairs) (lit "key is not string")
| order_absent pairs : named pairs -> absent (lit "fortran_order") pairs ->
    header_defect c (VDict pairs) (lit "dict is missing key 'fortran_order'")
| order_kind pairs v : named pairs -> last_value (lit "fortran_order") pairs v -> (forall b, v <> VBool b) ->
    header_defect c (VDict pairs) (lit "'fortran_order' value is not a bool")
| shape_absent pairs b : named pairs -> last_value (lit "fortran_order") pairs (VBool b) -> absent (lit "shape") pairs ->
    header_defect c (VDict pairs) (lit "dict is missing key 'shape'")
| shape_bad pairs b sv msg : named pairs -> last_value (lit "fortran_order") pairs (VBool b) -> last_value (lit "shape") pairs sv ->
    shape_defect sv msg -> header_defect c (VDict pairs) msg
| type_absent pairs b sv shape : named pairs -> last_value (lit "fortran_order") pairs (VBool b) -> last_value (lit "shape") pairs sv ->
    shape_value sv shape -> absent (lit "descr") pairs -> header_defect c (VDict pairs) (lit "dict is missing key 'descr'")
| type_bad pairs b sv shape dv msg : named pairs -> last_value (lit "fortran_order") pairs (VBool b) -> last_value (lit "shape") pairs sv ->
    shape_value sv shape -> last_value (lit "descr") pairs dv -> type_defect dv msg -> header_defect c (VDict pairs) msg
| item_large v d shape o : header_says v d shape o -> (c_ovf_panics c = true -> leading_fit shape) ->
    ~ has_object d -> ~ sizes_fit (c_usize_max c) d -> header_defect c v (lit "dtype is larger than usize!").

(** The text of the header without its line end, if it has one. *)
Definition line (txt content : bytes) : Prop := txt = content ++ [10] \/ txt = content /\ forall t, txt <> t ++ [10].

(** The file: magic, version, completeness, UTF-8, Python literal, header. *)
Inductive file_defect (c : cfg) (bs : bytes) : err -> Prop :=
| no_magic : (forall a b more, bs <> 0x93 :: lit "NUMPY" ++ a :: b :: more) -> file_defect c bs (EData (lit "magic not found for NPY file"))
| unknown_version a b more na nb : bs = 0x93 :: lit "NUMPY" ++ a :: b :: more -> ~ (b = 0 /\ (a = 1 \/ a = 2 \/ a = 3)) ->
    shortest_numeral na a -> shortest_numeral nb b ->
    file_defect c bs (EData (lit "unsupported version: (" ++ na ++ lit ", " ++ nb ++ lit ")"))
| cut_short a more : bs = 0x93 :: lit "NUMPY" ++ a :: 0 :: more -> (a = 1 \/ a = 2 \/ a = 3) ->
    (forall pre txt rest, bs = pre ++ rest -> ~ preamble_of pre txt) -> file_defect c bs EUnexpectedEof
| not_utf8 pre txt content rest : bs = pre ++ rest -> preamble_of pre txt -> line txt content ->
    (forall s, Forall (fun ch => scalar_value ch = true) s -> utf8_string s <> content) -> file_defect c bs (EData (lit "could not parse utf-8"))
| not_literal pre txt s rest : bs = pre ++ rest -> preamble_of pre txt -> line txt (utf8_string s) ->
    Forall (fun ch => scalar_value ch = true) s -> (forall v, ~ python_literal s v) ->
    file_defect c bs (EData (lit "could not parse Python expression: "))
| bad_header pre txt rest hv msg : bs = pre ++ rest -> preamble_of pre txt -> header_text txt hv -> header_defect c hv msg ->
    file_defect c bs (EData msg).
