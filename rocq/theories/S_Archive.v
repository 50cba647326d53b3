(** What an archive says, from the bytes of its entries: files, and the sparse matrices made of them.  Independent of the model's readers. *)
From Verif Require Import M_Base M_TypeStr M_IO M_Header M_Read M_Serialize M_Npz M_Sparse
  S_Text S_TypeStr S_Python S_DType S_Shape S_Header S_Elem S_Dict S_Open S_Sparse.
Open Scope N_scope.

(** * A file *)
(** The bytes [bs] begin with a header saying [d], [shape] and [o] that machine [c] can open; [data] is what follows. *)
Definition file_header (c : cfg) (bs : bytes) (d : dtype) (shape : list N) (o : order) (data : bytes) : Prop :=
  exists pre txt v, bs = pre ++ data /\ preamble_of pre txt /\ header_text txt v /\ header_says v d shape o /\ no_overflow_met c shape o /\ countable c d.
(** [data] begins with the encodings of [vs], one for each place of the shape.  (Without overflow checks the number of places is
    reduced to 64 bits.) *)
Definition file_items (t : rty) (d : dtype) (shape : list N) (data : bytes) (vs : list val) : Prop :=
  exists blocks more, data = List.concat blocks ++ more /\ Forall2 (fun b v => lenN b = size d /\ decode t d b = Some v) blocks vs
  /\ lenN vs = count shape mod 2 ^ 64.
Definition file_of (c : cfg) (t : rty) (bs : bytes) (d : dtype) (shape : list N) (o : order) (vs : list val) : Prop :=
  ~ has_object d /\ accepts (c_usize_max c) Reading t d /\ exists data, file_header c bs d shape o data /\ file_items t d shape data vs.
(** Opening a file panics. *)
Definition file_panics (c : cfg) (bs : bytes) : Prop :=
  exists pre txt v d shape o data, bs = pre ++ data /\ preamble_of pre txt /\ header_text txt v /\ header_says v d shape o /\ overflow_panic c d shape o.

(** The entries are bytes, and no entry that opens has byte strings too long for the memory of machine [c]. *)
Definition entries_ok (c : cfg) (a : archive) : Prop :=
  Forall (fun e => bytes_ok (snd e) /\ forall d shape o data, file_header c (snd e) d shape o data -> strings_fit (c_usize_max c) d) a.

(** * An array in an archive: the last entry of its file name *)
Definition entry (a : archive) (name : text) (bs : bytes) : Prop :=
  exists before after, a = before ++ (name ++ lit ".npy", bs) :: after /\ ~ In (name ++ lit ".npy") (map fst after).
Definition array_in (c : cfg) (a : archive) (name : text) (t : rty) (d : dtype) (o : order) (shape : list N) (vs : list val) : Prop :=
  exists bs, entry a name bs /\ file_of c t bs d shape o vs.

(** * A sparse matrix in an archive *)
(** A one-dimensional array of 32-bit or of 64-bit integers, of either byte order. *)
Definition integers_in (c : cfg) (a : archive) (name : text) (l : list Z) : Prop :=
  exists w d o n, (w = W4 \/ w = W8) /\ array_in c a name (RInt true w) d o [n] (map XInt l).
(** Negative numbers are wrapped to 64 bits (and then to the bits of [usize]). *)
Definition wrapped (z : Z) : N := Z.to_N (z mod 2 ^ 64)%Z.
Definition unsigned_in (c : cfg) (a : archive) (name : text) (l : list N) : Prop := exists zs, integers_in c a name zs /\ l = map wrapped zs.
Definition sizes_in (c : cfg) (a : archive) (name : text) (l : list N) : Prop :=
  exists us, unsigned_in c a name us /\ l = map (fun n => n mod (c_usize_max c + 1)) us.
Definition shape_in (c : cfg) (a : archive) (s : N * N) : Prop := unsigned_in c a (lit "shape") [fst s; snd s].
(** A zero-dimensional byte string. *)
Definition format_in (c : cfg) (a : archive) (f : format) : Prop :=
  exists d o, array_in c a (lit "format") RVecU8 d o [] [XBytes (format_name f)].
Definition data_in (c : cfg) (a : archive) (t : rty) (vs : list val) : Prop := exists d o n, array_in c a (lit "data") t d o [n] vs.
Definition compressed_in (c : cfg) (a : archive) (s : N * N) (indices indptr : list N) : Prop :=
  shape_in c a s /\ unsigned_in c a (lit "indices") indices /\ sizes_in c a (lit "indptr") indptr.
Definition represents (c : cfg) (t : rty) (a : archive) (m : sparse) : Prop :=
  format_in c a (format_of m) /\
  match m with
  | Coo m => shape_in c a (coo_shape m) /\ unsigned_in c a (lit "row") (coo_row m) /\ unsigned_in c a (lit "col") (coo_col m) /\ data_in c a t (coo_data m)
  | Csr m => compressed_in c a (csr_shape m) (csr_indices m) (csr_indptr m) /\ data_in c a t (csr_data m)
  | Csc m => compressed_in c a (csc_shape m) (csc_indices m) (csc_indptr m) /\ data_in c a t (csc_data m)
  | Dia m => shape_in c a (dia_shape m) /\ integers_in c a (lit "offsets") (dia_offsets m)
             /\ exists d n k, array_in c a (lit "data") t d OrderC [n; k] (dia_data m)
  | Bsr m => compressed_in c a (bsr_shape m) (bsr_indices m) (bsr_indptr m)
             /\ exists d n b0 b1, array_in c a (lit "data") t d OrderC [n; b0; b1] (bsr_data m)
                /\ bsr_blocksize m = (b0 mod (c_usize_max c + 1), b1 mod (c_usize_max c + 1))
  end.

(** * When reading one panics *)
(** What is looked at, in this order. *)
Inductive part := PFormat | PShape | PIntegers (name : text) | PData (ndim : nat).
Definition parts (f : format) : list part :=
  [PFormat; PShape] ++
  match f with
  | FCoo => [PIntegers (lit "row"); PIntegers (lit "col"); PData 1]
  | FCsr | FCsc => [PIntegers (lit "indices"); PIntegers (lit "indptr"); PData 1]
  | FDia => [PIntegers (lit "offsets"); PData 2]
  | FBsr => [PIntegers (lit "indices"); PIntegers (lit "indptr"); PData 3]
  end.
Definition part_name (p : part) : text :=
  match p with PFormat => lit "format" | PShape => lit "shape" | PIntegers name => name | PData _ => lit "data" end.
Definition part_ok (c : cfg) (t : rty) (a : archive) (f : format) (p : part) : Prop :=
  match p with
  | PFormat => format_in c a f
  | PShape => exists s, shape_in c a s
  | PIntegers name => exists l, integers_in c a name l
  | PData ndim => exists d o shape vs, array_in c a (lit "data") t d o shape vs /\ List.length shape = ndim /\ (ndim <> 1%nat -> o = OrderC)
  end.
(** Everything before some part is as it should be, and opening that one panics. *)
Definition panics_at (c : cfg) (t : rty) (a : archive) (f : format) : Prop :=
  exists before p after, parts f = before ++ p :: after /\ Forall (part_ok c t a f) before
  /\ exists bs, entry a (part_name p) bs /\ file_panics c bs.
