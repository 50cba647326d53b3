(** What is said about arrays and sparse matrices that cannot be read whole, independent of the model's readers. *)
From Verif Require Import M_Base M_TypeStr M_IO M_Header M_Read M_Serialize M_Npz
  S_Text S_TypeStr S_Shape S_Header S_Elem S_Sparse S_Archive S_Defect S_Fault S_Message.
Open Scope N_scope.

(** * The items of a file *)
(** No item can be read from the start of [input]: it has something unreadable in it, or it ends too early. *)
Definition item_defect (t : rty) (d : dtype) (input : bytes) (e : err) : Prop :=
  (exists bs rest msg, input = bs ++ rest /\ unreadable t d bs msg /\ e = EData msg)
  \/ (lenN input < size d /\ (forall bs rest msg, input = bs ++ rest -> ~ unreadable t d bs msg) /\ e = EUnexpectedEof).
(** Some items can be read, but then there is a place of the shape left whose item cannot be. *)
Definition items_defect (t : rty) (d : dtype) (shape : list N) (data : bytes) (e : err) : Prop :=
  exists blocks rest, data = List.concat blocks ++ rest /\ lenN blocks < count shape mod 2 ^ 64
  /\ Forall (fun b => lenN b = size d /\ exists v, decode t d b = Some v) blocks /\ item_defect t d rest e.
(** A dtype that is refused is complained about before any item is read. *)
Definition contents_defect (c : cfg) (t : rty) (d : dtype) (shape : list N) (data : bytes) (e : err) : Prop :=
  (exists msg, read_complaint (c_usize_max c) t d msg /\ e = EData msg)
  \/ (~ has_object d /\ accepts (c_usize_max c) Reading t d /\ items_defect t d shape data e).
Definition array_defect (c : cfg) (t : rty) (bs : bytes) (e : err) : Prop :=
  file_defect c bs e \/ exists d shape o data, file_header c bs d shape o data /\ contents_defect c t d shape data e.

(** * The parts of a sparse matrix *)
(** The number of axes that each part must have. *)
Definition part_axes (p : part) : N := match p with PFormat => 0 | PShape => 1 | PIntegers _ => 1 | PData n => N.of_nat n end.
Definition of_integers (p : part) : Prop := match p with PShape | PIntegers _ => True | _ => False end.

Inductive part_defect (c : cfg) (t : rty) (a : archive) : part -> err -> Prop :=
| defect_missing p : (forall bs, ~ entry a (part_name p) bs) ->
    part_defect c t a p (EData (lit "missing array '" ++ part_name p ++ lit "' from sparse array"))
| defect_unopened p bs e : entry a (part_name p) bs -> file_defect c bs e -> part_defect c t a p e
| defect_axes p bs d shape o data k n : entry a (part_name p) bs -> file_header c bs d shape o data ->
    lenN shape <> part_axes p -> shortest_numeral k (lenN shape) -> shortest_numeral n (part_axes p) ->
    part_defect c t a p (EData (lit "invalid ndim for " ++ part_name p ++ lit ": " ++ k ++ lit " (expected " ++ n ++ lit ")"))
| defect_format bs d o data e : entry a (lit "format") bs -> file_header c bs d [] o data -> contents_defect c RVecU8 d [] data e ->
    part_defect c t a PFormat e
| defect_order n bs d shape data : n <> 1%nat -> entry a (lit "data") bs -> file_header c bs d shape OrderFortran data -> List.length shape = n ->
    part_defect c t a (PData n) (EData (lit "fortran order is not currently supported for array 'data' in sparse NPZ file"))
| defect_data n bs d shape o data e : (n <> 1%nat -> o = OrderC) -> entry a (lit "data") bs -> file_header c bs d shape o data -> List.length shape = n ->
    contents_defect c t d shape data e -> part_defect c t a (PData n) e
| defect_dtype p bs d n o data w : of_integers p -> entry a (part_name p) bs -> file_header c bs d [n] o data ->
    ~ accepts (c_usize_max c) Reading (RInt true W4) d -> ~ accepts (c_usize_max c) Reading (RInt true W8) d -> dtype_shown d w ->
    part_defect c t a p (EData (lit "invalid dtype for '" ++ part_name p ++ lit "' in sparse matrix: " ++ w))
| defect_integers p bs d n o data i e : of_integers p -> entry a (part_name p) bs -> file_header c bs d [n] o data ->
    i = W4 \/ i = W8 -> accepts (c_usize_max c) Reading (RInt true i) d -> items_defect (RInt true i) d [n] data e -> part_defect c t a p e
| defect_length l k : integers_in c a (lit "shape") l -> List.length l <> 2%nat -> shortest_numeral k (lenN l) ->
    part_defect c t a PShape (EData (lit "invalid length for 'shape' (got " ++ k ++ lit ", expected 2)")).

(** A format is shown in quotes, with the bytes that are not ASCII text as two hexadecimal digits. *)
Definition hex_pair (b : N) (w : text) : Prop :=
  exists hi lo x y, b = 16 * N.of_nat hi + N.of_nat lo /\ nth_error (lit "0123456789ABCDEF") hi = Some x /\ nth_error (lit "0123456789ABCDEF") lo = Some y /\ w = [x; y].
Inductive byte_shown : N -> text -> Prop :=
| byte_plain b : 0x20 <= b <= 0x7f -> byte_shown b [b]
| byte_escaped b w : ~ 0x20 <= b <= 0x7f -> hex_pair b w -> byte_shown b (lit "\x" ++ w).
Definition format_shown (b : bytes) (w : text) : Prop := exists ws, Forall2 byte_shown b ws /\ w = lit "'" ++ List.concat ws ++ lit "'".
Definition other_format (c : cfg) (a : archive) (f : format) (e : err) : Prop :=
  exists b w d o, array_in c a (lit "format") RVecU8 d o [] [XBytes b] /\ b <> format_name f /\ format_shown b w
  /\ e = EData (lit "wrong format: expected '" ++ format_name f ++ lit "', got " ++ w).

(** Everything before some part is as it should be, and that one is not. *)
Definition broken (c : cfg) (t : rty) (a : archive) (f : format) (e : err) : Prop :=
  exists before p after, parts f = before ++ p :: after /\ Forall (part_ok c t a f) before
  /\ (part_defect c t a p e \/ (p = PFormat /\ other_format c a f e)).
(** When the format is taken from the archive. *)
Definition broken_any (c : cfg) (t : rty) (a : archive) (e : err) : Prop :=
  part_defect c t a PFormat e
  \/ (exists b w d o, array_in c a (lit "format") RVecU8 d o [] [XBytes b] /\ (forall f, b <> format_name f) /\ format_shown b w /\ e = EData (lit "bad format: " ++ w))
  \/ exists f, format_in c a f /\ broken c t a f e.
