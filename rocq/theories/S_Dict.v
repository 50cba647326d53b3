(** What a header dictionary says, and what a file preamble is, without reference to the model's functions.
    ([value] is the type of Python literals, [spells] the grammar of type strings.) *)
From Verif Require Import M_Base M_TypeStr M_PyLit M_Header M_Read S_TypeStr S_Header.
Open Scope N_scope.

(** The value a Python dict literal gives to a key: the last one wins. *)
Definition last_value (key : text) (pairs : list (value * value)) (v : value) : Prop :=
  exists l1 l2, pairs = l1 ++ (VString key, v) :: l2 /\ ~ In (VString key) (map fst l2).

(** A list or tuple of non-negative 64-bit integers. *)
Definition shape_value (v : value) (shape : list N) : Prop :=
  exists l, (v = VList l \/ v = VTuple l) /\ Forall2 (fun x n => x = VInteger (Z.of_N n) /\ n < 2 ^ 64) l shape.

(** numpy's [descr]: a type string, or a list of fields, each a pair or triple. *)
Inductive describes : value -> dtype -> Prop :=
| describes_plain s t : spells s t -> describes (VString s) (DPlain t)
| describes_record l fs : describes_fields l fs -> describes (VList l) (DRecord fs)
with describes_fields : list value -> list (text * dtype) -> Prop :=
| fields_nil : describes_fields [] []
| fields_cons v l name d fs : describes_field v name d -> describes_fields l fs -> describes_fields (v :: l) ((name, d) :: fs)
with describes_field : value -> text -> dtype -> Prop :=
| field_pair v name dv d : (v = VTuple [VString name; dv] \/ v = VList [VString name; dv]) ->
    describes dv d -> describes_field v name d
| field_triple v name dv sv d shape : (v = VTuple [VString name; dv; sv] \/ v = VList [VString name; dv; sv]) ->
    describes dv d -> shape_value sv shape -> describes_field v name (fold_right DArray d shape).

(** A header: a dict with string keys only, where the three keys have values of the right kind. *)
Definition header_says (hv : value) (d : dtype) (shape : list N) (o : order) : Prop :=
  exists pairs dv sv fortran,
    hv = VDict pairs
    /\ Forall (fun p => exists s, fst p = VString s) pairs
    /\ last_value (lit "descr") pairs dv /\ describes dv d
    /\ last_value (lit "shape") pairs sv /\ shape_value sv shape
    /\ last_value (lit "fortran_order") pairs (VBool fortran)
    /\ o = (if fortran then OrderFortran else OrderC).

(** The part of a file before its data: magic, one of the three versions, a length, and that many bytes of text. *)
Definition preamble_of (pre txt : bytes) : Prop :=
  exists major len,
    pre = 0x93 :: lit "NUMPY" ++ [major; 0] ++ len ++ txt
    /\ (major = 1 \/ major = 2 \/ major = 3)
    /\ lenN len = (if major =? 1 then 2 else 4)
    /\ little_endian len = lenN txt.

(** A file that begins with magic, version and a header length [n] (and perhaps not much else). *)
Definition announces (input : bytes) (n : N) : Prop :=
  exists major len more,
    input = 0x93 :: lit "NUMPY" ++ [major; 0] ++ len ++ more
    /\ (major = 1 \/ major = 2 \/ major = 3)
    /\ lenN len = (if major =? 1 then 2 else 4)
    /\ little_endian len = n.
