(** Concrete outcomes at the edges, each stated with the values themselves.  The theorems imply all of them; they are written down because
    they were seen to differ for wrong programs that no other Example tells from the right one (seeded/README.md). *)
From Verif Require Import M_Base M_Text M_TypeStr M_PyLit M_IO M_Header M_Read M_Serialize M_DTypeErr M_NpyReader M_Source M_Write M_Buffered M_Npz M_Sparse.
From Verif Require Import S_Text S_TypeStr S_DType S_Shape S_Header S_Elem S_Strings S_Sparse S_Write.
From Verif Require Import P_Base T_Elem T_Reader T_Archive T_Source T_Broken.
Open Scope N_scope.

(** * Writing *)
Definition E_header (descr shape : string) (pad : N) : bytes := [0x93] ++ lit "NUMPY" ++ [1; 0; 118; 0]
  ++ lit "{'descr': " ++ lit descr ++ lit ", 'fortran_order': False, 'shape': " ++ lit shape ++ lit ", }" ++ repeatN 32 pad ++ [10].
Definition E_u8 : dtype := plain Irrelevant TUint 1.
Definition E_room (n : N) : sink := {| sk_data := []; sk_pos := 0; sk_fuel := Some n |}.
Definition E_three : list val := [XInt 7; XInt 8; XInt 9].
(** C69: a file of known shape through a large buffer is complete once [finish] has returned. *)
Example C69_edge_flush : exists b, write_file_on (@run_buffered) le64 (RInt false W1) E_u8 OrderC (NDimensional [3]) false E_three (fresh (std_policy 8192) (empty_sink)) = (Ok tt, b)
  /\ sk_data (b_file b) = E_header "'|u1'" "(3, )" 59 ++ [7; 8; 9].
Proof. eexists. split; [ vm_compute; reflexivity | ]. vm_compute. reflexivity. Qed.
(** An item short: [finish] fails before flushing; what was pushed gets to the file when the buffer is dropped, and not before. *)
Example C69_edge_drop : exists b, session_on (@run_buffered) le64 (RInt false W1) E_u8 OrderC (NDimensional [3]) false [XInt 7; XInt 8] Finished (fresh (std_policy 8192) empty_sink)
    = (Ok ([Ok tt; Ok tt], Err (EData (lit "shape has 3 item(s), but 2 item(s) were written!"))), b)
  /\ sk_data (b_file b) = [] /\ sk_data (drop_buffer b) = E_header "'|u1'" "(3, )" 59 ++ [7; 8].
Proof. eexists. split; [ vm_compute; reflexivity | ]. split; vm_compute; reflexivity. Qed.
(** Room for all the bytes but not for the flush that ends them (twice: by [finish] and by the drop that follows it). *)
Example C07_edge_flush : exists s s', write_file le64 (RInt false W1) E_u8 OrderC (NDimensional [3]) false E_three (E_room 131) = (Err ESink, s)
  /\ sk_data s = E_header "'|u1'" "(3, )" 59 ++ [7; 8; 9]
  /\ write_file le64 (RInt false W1) E_u8 OrderC (NDimensional [3]) false E_three (E_room 132) = (Ok tt, s').
Proof. eexists _, _. split; [ vm_compute; reflexivity | ]. split; vm_compute; reflexivity. Qed.
(** C11: a growing file whose writer is dropped has its shape. *)
Example C11_edge_drop : exists s, session le64 (RInt false W1) E_u8 OrderC OneDimensional true E_three Dropped empty_sink = (Ok ([Ok tt; Ok tt; Ok tt], Ok tt), s)
  /\ sk_data s = E_header "'|u1'" "(3,)" 60 ++ [7; 8; 9].
Proof. eexists. split; [ vm_compute; reflexivity | ]. vm_compute. reflexivity. Qed.
(** C04, C33: the shape given; the order given. *)
Example C04_edge_shape : exists s, write_header_only le64 E_u8 OrderC [2; 3] empty_sink = (Ok tt, s) /\ sk_data s = E_header "'|u1'" "(2, 3, )" 56.
Proof. eexists. split; vm_compute; reflexivity. Qed.
Example C33_edge_order : exists w s, build_nd le64 (RInt false W1) (configured [OptOrder OrderFortran; OptShape [2; 3]; OptDType E_u8; OptWriter empty_sink]) = Some (Ok w, s)
  /\ takeN 62 (dropN 10 (sk_data s)) = lit "{'descr': '|u1', 'fortran_order': True, 'shape': (2, 3, ), }  ".
Proof. eexists _, _. split; vm_compute; reflexivity. Qed.
(** C03: nested array dtypes, from the outside in. *)
Example C03_edge_dims : extract_full_array_shape (DArray 2 (DArray 3 E_u8)) = ([2; 3], E_u8)
  /\ descr (DRecord [(lit "a", DArray 2 (DArray 3 E_u8))]) = lit "[('a', '|u1', (2,3,)), ]".
Proof. split; vm_compute; reflexivity. Qed.

(** * Reading *)
(** C21: bytes of dtype [V] are read with their trailing nuls, those of [S] without. *)
Example C21_edge_nuls :
  (exists f src', npy_new le64 (from_start (npy_text "'|V3'" "(2,)" [1; 0; 0; 0; 0; 0])) = (Ok f, src') /\ fst (npy_into_vec le64 RVecU8 f) = Ok [XBytes [1; 0; 0]; XBytes [0; 0; 0]])
  /\ (exists f src', npy_new le64 (from_start (npy_text "'|S3'" "(2,)" [1; 0; 0; 0; 0; 0])) = (Ok f, src') /\ fst (npy_into_vec le64 RVecU8 f) = Ok [XBytes [1]; XBytes []]).
Proof. split; eexists _, _; (split; [ vm_compute; reflexivity | ]); vm_compute; reflexivity. Qed.
(** C70: a pickled array, over any source. *)
Example C70_edge_pickle : exists h s, open_source le64 [Chunk (npy_text "'|O'" "(1,)" [1; 2])] = (Done (Ok h), s) /\ data_source le64 RVecU8 h s = DErr RequiresPickle.
Proof. eexists _, _. split; [ vm_compute; reflexivity | ]. vm_compute. reflexivity. Qed.
(** C62: names that need escapes, as in rustc's messages. *)
Example C62_edge_escapes : dterr_display (WrongFields [[92; 0; 127; 9; 13]] [[34; 31]]) = lit "field names do not match (expected [""\\\0\u{7f}\t\r""], got [""\""\u{1f}""])".
Proof. vm_compute. reflexivity. Qed.

(** * Sparse matrices *)
Definition E_part (name descr shape : string) (data : bytes) : text * bytes := (lit name, npy_text descr shape data).
Definition E_shape : text * bytes := E_part "shape.npy" "'<i8'" "(2,)" [2;0;0;0;0;0;0;0; 2;0;0;0;0;0;0;0].
(** C63: of two missing parts the first is reported; a byte 0x7f in the format is shown as it is. *)
Example C63_edge_first :
  sparse_from_npz le64 RBool [E_part "format.npy" "'|S3'" "()" (lit "coo"); E_shape] = Err (EData (lit "missing array 'row' from sparse array"))
  /\ sparse_from_npz le64 RBool [E_part "format.npy" "'|S3'" "()" (lit "dia"); E_shape] = Err (EData (lit "missing array 'offsets' from sparse array"))
  /\ bsr_from_npz le64 RBool [E_part "format.npy" "'|S3'" "()" (lit "dia")] = Err (EData (lit "wrong format: expected 'bsr', got 'dia'"))
  /\ sparse_from_npz le64 RBool [E_part "format.npy" "'|S3'" "()" [0x7f; 0x80; 0x7e]; E_shape] = Err (EData (lit "bad format: '" ++ [0x7f] ++ lit "\x80~'")).
Proof. repeat split; vm_compute; reflexivity. Qed.
(** C50: on a 32-bit machine [indptr] loses what does not fit. *)
Example C50_edge_32 : exists m, csr_from_npz le32 (RInt false W1) [E_part "format.npy" "'|S3'" "()" (lit "csr"); E_shape; E_part "indices.npy" "'<i4'" "(1,)" [1;0;0;0];
    E_part "indptr.npy" "'<i8'" "(3,)" [0;0;0;0;0;0;0;0; 5;0;0;0;1;0;0;0; 255;255;255;255;255;255;255;255]; E_part "data.npy" "'|u1'" "(1,)" [9]] = Ok m
  /\ csr_indptr m = [0; 5; 2 ^ 32 - 1].
Proof. eexists. split; vm_compute; reflexivity. Qed.
