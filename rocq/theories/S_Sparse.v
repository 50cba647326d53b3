(** Specification of sparse matrices in archives: the layout of scipy.sparse.save_npz. *)
From Verif Require Import M_Base M_Text M_TypeStr M_PyLit M_IO M_Header M_Read M_Serialize M_NpyReader M_Write M_Npz M_Sparse
  S_TypeStr S_DType S_Shape S_Elem S_Write S_Npz.
Open Scope N_scope.

Inductive format := FCoo | FCsr | FCsc | FDia | FBsr.
Definition format_name (f : format) : bytes :=
  match f with FCoo => lit "coo" | FCsr => lit "csr" | FCsc => lit "csc" | FDia => lit "dia" | FBsr => lit "bsr" end.
Definition format_of (m : sparse) : format :=
  match m with Coo _ => FCoo | Csr _ => FCsr | Csc _ => FCsc | Dia _ => FDia | Bsr _ => FBsr end.
(** The typed readers ([Coo::from_npz] and so on), as one function of the format asked for. *)
Definition read_as (f : format) (c : cfg) (t : rty) (a : archive) : res sparse :=
  match f with
  | FCoo => let* m := coo_from_npz c t a in Ok (Coo m)
  | FCsr => let* m := csr_from_npz c t a in Ok (Csr m)
  | FCsc => let* m := csc_from_npz c t a in Ok (Csc m)
  | FDia => let* m := dia_from_npz c t a in Ok (Dia m)
  | FBsr => let* m := bsr_from_npz c t a in Ok (Bsr m)
  end.

(** * What is in the archive *)
(** Two's complement: the signed integer with the same 64 bits. *)
Definition signed (n : N) : Z := if n <? 2 ^ 63 then Z.of_N n else (Z.of_N n - 2 ^ 64)%Z.
Definition fits_i32 (z : Z) : bool := ((- 2 ^ 31 <=? z) && (z <? 2 ^ 31))%Z.
Definition native_int (c : cfg) (n : N) : dtype := DPlain {| ts_endianness := if c_big c then Big else Little; ts_char := TInt; ts_size := n; ts_units := None |}.
Definition array (name : text) (t : rty) (d : dtype) (shape : list N) (vs : list val) : saved :=
  {| sv_name := name; sv_type := t; sv_dtype := d; sv_order := OrderC; sv_shape := shape; sv_vals := vs; sv_ending := Dropped |}.
Definition format_array (f : format) : saved :=
  array (lit "format") RVecU8 (DPlain {| ts_endianness := Irrelevant; ts_char := TByteStr; ts_size := 3; ts_units := None |}) [] [XBytes (format_name f)].
Definition shape_array (c : cfg) (s : N * N) : saved :=
  array (lit "shape") (RInt true W8) (native_int c 8) [2] [XInt (signed (fst s)); XInt (signed (snd s))].
(** 32 bits exactly when every value fits. *)
Definition index_array (c : cfg) (name : text) (l : list Z) : saved :=
  if forallb fits_i32 l then array name (RInt true W4) (native_int c 4) [lenN l] (map XInt l)
  else array name (RInt true W8) (native_int c 8) [lenN l] (map XInt l).
Definition layout (c : cfg) (t : rty) (d : dtype) (m : sparse) : list saved :=
  match m with
  | Coo m => [ format_array FCoo; shape_array c (coo_shape m); index_array c (lit "row") (map signed (coo_row m));
               index_array c (lit "col") (map signed (coo_col m)); array (lit "data") t d [lenN (coo_data m)] (coo_data m) ]
  | Csr m => [ format_array FCsr; shape_array c (csr_shape m); index_array c (lit "indices") (map signed (csr_indices m));
               index_array c (lit "indptr") (map signed (csr_indptr m)); array (lit "data") t d [lenN (csr_data m)] (csr_data m) ]
  | Csc m => [ format_array FCsc; shape_array c (csc_shape m); index_array c (lit "indices") (map signed (csc_indices m));
               index_array c (lit "indptr") (map signed (csc_indptr m)); array (lit "data") t d [lenN (csc_data m)] (csc_data m) ]
  | Dia m => [ format_array FDia; shape_array c (dia_shape m); index_array c (lit "offsets") (dia_offsets m);
               array (lit "data") t d [lenN (dia_data m) / lenN (dia_offsets m); lenN (dia_offsets m)] (dia_data m) ]
  | Bsr m => [ format_array FBsr; shape_array c (bsr_shape m); index_array c (lit "indices") (map signed (bsr_indices m));
               index_array c (lit "indptr") (map signed (bsr_indptr m));
               array (lit "data") t d [lenN (bsr_indices m); fst (bsr_blocksize m); snd (bsr_blocksize m)] (bsr_data m) ]
  end.
(** An entry of an archive is this array, for any machine that can read it. *)
Definition holds (c : cfg) (x : saved) (e : text * bytes) : Prop :=
  fst e = sv_name x ++ lit ".npy" /\ reads_as c (sv_type x) (snd e) 0 (sv_dtype x) (sv_order x) (sv_shape x) (sv_vals x).

(** * Matrices *)
Definition u64_ok (n : N) : Prop := n < 2 ^ 64.
Definition i64_ok (z : Z) : Prop := (- 2 ^ 63 <= z < 2 ^ 63)%Z.
Definition shape_ok (s : N * N) : Prop := u64_ok (fst s) /\ u64_ok (snd s).
Definition data_of (m : sparse) : list val :=
  match m with Coo m => coo_data m | Csr m => csr_data m | Csc m => csc_data m | Dia m => dia_data m | Bsr m => bsr_data m end.
(** Every number is of its Rust type ([max]: the largest [usize] of both machines) and sequences have representable lengths.  Nothing
    relates the sequences to each other, except that DIA data must be a multiple of the (nonzero) number of offsets, and BSR data must be
    one block per index and the products of its axes must not overflow. *)
Definition compressed_ok (max : N) (s : N * N) (indices indptr : list N) : Prop :=
  shape_ok s /\ Forall u64_ok indices /\ Forall (fun n => n <= max) indptr /\ lenN indices <= max /\ lenN indptr <= max.
Definition matrix_ok (max : N) (m : sparse) : Prop :=
  lenN (data_of m) <= max /\
  match m with
  | Coo m => shape_ok (coo_shape m) /\ Forall u64_ok (coo_row m) /\ Forall u64_ok (coo_col m) /\ lenN (coo_row m) <= max /\ lenN (coo_col m) <= max
  | Csr m => compressed_ok max (csr_shape m) (csr_indices m) (csr_indptr m)
  | Csc m => compressed_ok max (csc_shape m) (csc_indices m) (csc_indptr m)
  | Dia m => shape_ok (dia_shape m) /\ Forall i64_ok (dia_offsets m) /\ lenN (dia_offsets m) <= max
             /\ exists length, 0 < lenN (dia_offsets m) /\ lenN (dia_data m) = length * lenN (dia_offsets m)
  | Bsr m => let '(b0, b1) := bsr_blocksize m in compressed_ok max (bsr_shape m) (bsr_indices m) (bsr_indptr m) /\ b0 <= max /\ b1 <= max
             /\ lenN (bsr_data m) = lenN (bsr_indices m) * b0 * b1 /\ lenN (bsr_indices m) * b0 <= max /\ no_overflow [lenN (bsr_indices m); b0; b1]
  end.
(** The data: values of a type whose default dtype on machine [c] is [d], which machine [c'] can read. *)
Definition data_ok (c c' : cfg) (t : rty) (d : dtype) (vs : list val) : Prop :=
  default_dtype c t = Some (Ok d) /\ has_default (c_usize_max c) t /\ top_level d /\ lenN (utf8 (descr d)) <= 64000
  /\ accepts (c_usize_max c') Reading t d /\ sizes_fit (c_usize_max c') d /\ strings_fit (c_usize_max c') d
  /\ Forall (has_type t) vs /\ Forall units_ok vs /\ Forall (survives t d) vs.
