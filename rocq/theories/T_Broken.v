(** C63: what is said about an array or a sparse matrix that cannot be read whole. *)
From Verif Require Import M_Base M_Text M_TypeStr M_PyLit M_IO M_Header M_Read M_Serialize M_DTypeErr M_NpyReader M_Write M_Npz M_Sparse.
From Verif Require Import S_TypeStr S_Shape S_Header S_Elem S_Open S_Sparse S_Archive S_Defect S_Fault S_Message S_Broken.
From Verif Require Import P_Base P_Header P_Elem P_Archive P_Fault P_Broken T_Text T_Elem T_Reader T_Archive.
Open Scope N_scope.

(** Opening a file and reading all of it fails with this error exactly if this is its first defect: in the header, then in the dtype, then in the items. *)
Theorem C63_file_exactly : forall c t bs e, bytes_ok bs -> (forall d shape o data, file_header c bs d shape o data -> strings_fit (c_usize_max c) d) ->
  (let* f := fst (npy_new c (from_start bs)) in fst (npy_into_vec c t f)) = Err e <-> array_defect c t bs e.
Proof. exact array_defect_exact. Qed.
Print Assumptions C63_file_exactly.
Theorem C63_one_defect : forall c t bs e e', bytes_ok bs -> (forall d shape o data, file_header c bs d shape o data -> strings_fit (c_usize_max c) d) ->
  array_defect c t bs e -> array_defect c t bs e' -> e = e'.
Proof. exact array_defect_unique. Qed.
Print Assumptions C63_one_defect.
(** Sparse matrices. *)
Theorem C63_typed_exactly : forall c t a f e, entries_ok c a -> read_as f c t a = Err e <-> broken c t a f e.
Proof. exact broken_exact. Qed.
Print Assumptions C63_typed_exactly.
Theorem C63_sparse_exactly : forall c t a e, entries_ok c a -> sparse_from_npz c t a = Err e <-> broken_any c t a e.
Proof. exact broken_any_exact. Qed.
Print Assumptions C63_sparse_exactly.
(** An archive represents a matrix of the format, or has one first defect, or makes the reader panic. *)
Theorem C63_or_represents : forall c t a f, entries_ok c a -> (exists m, format_of m = f /\ represents c t a m) \/ (exists e, broken c t a f e) \/ panics_at c t a f.
Proof. exact broken_or. Qed.
Print Assumptions C63_or_represents.
Theorem C63_one_broken : forall c t a f e e', entries_ok c a -> broken c t a f e -> broken c t a f e' -> e = e'.
Proof. exact broken_unique. Qed.
Print Assumptions C63_one_broken.

(** The second of three bools is bad, and the third is missing; the first complaint wins.  Without the bad one the end is reported. *)
Definition C63_bools (second : N) : bytes := npy_text "'|b1'" "(3,)" [1; second].
Example C63_file_case : array_defect le64 RBool (C63_bools 9) (EData (lit "invalid value for bool: 9"))
  /\ array_defect le64 RBool (C63_bools 1) EUnexpectedEof
  /\ array_defect le64 RString (C63_bools 9) (EData (lit "cannot read type alloc::string::String with type-string '|b1'")).
Proof.
  assert (F : forall s, s < 256 -> bytes_ok (C63_bools s) /\ forall d shape o data, file_header le64 (C63_bools s) d shape o data -> strings_fit (c_usize_max le64) d).
  { intros s Hs. assert (Ha : entries_ok le64 [(lit "x", C63_bools s)]).
    { apply archive_dec. cbn [forallb snd]. rewrite !andb_true_iff. split; [ | reflexivity ]. split; [ | vm_compute; reflexivity ].
      vm_compute (C63_bools s). cbn [forallb]. rewrite !andb_true_r. repeat (apply andb_true_iff; split; [ reflexivity | ]). lia. }
    apply Forall_inv in Ha. exact Ha. }
  repeat split; (apply C63_file_exactly; [ apply F; lia | apply F; lia | vm_compute; reflexivity ]).
Qed.
Example C63_items_case : items_defect RBool (plain Irrelevant TBool 1) [3] [1; 9] (EData (lit "invalid value for bool: 9")).
Proof.
  exists [[1]], [9]. split; [ reflexivity | ]. split; [ reflexivity | ]. split; [ repeat constructor; exists (XBool true); reflexivity | ].
  left. exists [9], [], (lit "invalid value for bool: 9"). split; [ reflexivity | ]. split; [ | reflexivity ].
  apply (bool_value {| ts_endianness := Irrelevant; ts_char := TBool; ts_size := 1; ts_units := None |} 9 (lit "9")); try lia. now apply decimal_exact.
Qed.

(** The parts of the archive of C50 replaced one at a time. *)
Definition C63_with (name : string) (bs : bytes) : archive := foreign ++ [(lit name ++ lit ".npy", bs)].
Ltac broken_case := apply C63_sparse_exactly; [ apply archive_dec; vm_compute; reflexivity | vm_compute; reflexivity ].
Example C63_case_missing : broken_any le64 RBool [(lit "format", npy_text "'|S3'" "()" (lit "csr"))] (EData (lit "missing array 'format' from sparse array")).
Proof. broken_case. Qed.
Example C63_case_next : broken_any le64 RBool [(lit "format.npy", npy_text "'|S3'" "()" (lit "csr"))] (EData (lit "missing array 'shape' from sparse array")).
Proof. broken_case. Qed.
Example C63_case_other : broken_any le64 (RFloat F4) (C63_with "format" (npy_text "'|S6'" "()" ([9; 255] ++ lit "co' "))) (EData (lit "bad format: '\x09\xFFco' '")).
Proof. broken_case. Qed.
Example C63_case_expected : broken le64 (RFloat F4) foreign FBsr (EData (lit "wrong format: expected 'bsr', got 'coo'")).
Proof. apply C63_typed_exactly; [ apply archive_dec; vm_compute; reflexivity | vm_compute; reflexivity ]. Qed.
Example C63_case_shape : broken_any le64 (RFloat F4) (C63_with "shape" (npy_text "'<i4'" "(3,)" [1;0;0;0; 2;0;0;0; 3;0;0;0])) (EData (lit "invalid length for 'shape' (got 3, expected 2)"))
  /\ broken_any le64 (RFloat F4) (C63_with "shape" (npy_text "'<i4'" "(3, 1)" [1;0;0;0; 2;0;0;0; 3;0;0;0])) (EData (lit "invalid ndim for shape: 2 (expected 1)"))
  /\ broken_any le64 (RFloat F4) (C63_with "shape" (npy_text "'<u4'" "(2,)" [])) (EData (lit "invalid dtype for 'shape' in sparse matrix: '<u4'"))
  /\ broken_any le64 (RFloat F4) (C63_with "row" (npy_text "'<i4'" "(2,)" [1;0;0;0; 2;0])) EUnexpectedEof
  /\ broken_any le64 (RFloat F4) (C63_with "row" [0x93]) (EData (lit "magic not found for NPY file"))
  /\ broken_any le64 RBool foreign (EData (lit "cannot read type bool with type-string '>f4'")).
Proof. repeat split; broken_case. Qed.
Example C63_case_order : broken_any le64 (RInt false W1) (foreign_dia (fortran_text "'|O'" "(1, 2)" [])) (EData (lit "fortran order is not currently supported for array 'data' in sparse NPZ file"))
  /\ broken_any le64 (RInt false W1) (foreign_dia (npy_text "'|O'" "(1, 2)" [])) (EData (lit "this dtype uses a pickled array, which npyz's read/write APIs do not currently support")).
Proof. repeat split; broken_case. Qed.
