(** More concrete outcomes at the edges (see T_Edges.v). *)
From Verif Require Import M_Base M_Text M_TypeStr M_PyLit M_IO M_Header M_Read M_Serialize M_DTypeErr M_NpyReader M_Source M_Write M_Buffered M_Npz M_Sparse.
From Verif Require Import S_Text S_TypeStr S_DType S_Shape S_Header S_Elem S_Strings S_Sparse S_Write.
From Verif Require Import P_Base T_Elem T_Reader T_Archive T_Source T_Broken T_Edges.
Open Scope N_scope.

Definition E_fails {A} (r : res A) : option err := match r with Err e => Some e | _ => None end.
Definition E_huge (ch : type_char) (n : N) : dtype := plain Irrelevant ch n.

(** * Writing *)
(** C07: a growing file with room for all but the last flush: the shape is there, the call fails. *)
Example C07_edge_growing : exists s,
  write_file le64 (RInt false W1) E_u8 OrderC OneDimensional true E_three (E_room 160) = (Err ESink, s)
  /\ sk_data s = E_header "'|u1'" "(3,)" 60 ++ [7; 8; 9] /\ sk_fuel s = Some 0.
Proof. eexists. split; [ vm_compute; reflexivity | ]. split; vm_compute; reflexivity. Qed.
(** C62: the messages of a file that was not completed. *)
Example C62_edge_finish :
  E_fails (fst (write_file le64 (RInt false W1) E_u8 OrderC (NDimensional [2]) false E_three empty_sink)) = Some (EData (lit "shape has 2 item(s), but 3 item(s) were written!"))
  /\ E_fails (fst (write_file le64 (RInt false W1) E_u8 OrderC (TwoDimensional 2) true E_three empty_sink)) = Some (EData (lit "3 item(s) is not divisible by 2!"))
  /\ E_fails (fst (write_file le64 (RInt false W2) E_u8 OrderC OneDimensional true [] empty_sink)) = Some (EData (lit "cannot write type u16 with type-string '|u1'"))
  /\ E_fails (fst (write_file le64 (RArrU32 2) E_u8 OrderC OneDimensional true [] empty_sink)) = Some (EData (lit "cannot write type [u32] with type-string '|u1'"))
  /\ E_fails (fst (write_file le64 RVecU32 (plain Little TUnicodeStr 1) OrderC OneDimensional true [XUnits [0x110000]] empty_sink)) = Some (EData (lit "codepoint 0x110000 is out of range")).
Proof. repeat apply conj; vm_compute; reflexivity. Qed.
(** C33: the last writer given is the one used; two dimensions when a record length is given. *)
Definition E_marked : sink := {| sk_data := [1; 2; 3]; sk_pos := 3; sk_fuel := None |}.
Example C33_edge_writer : exists w s, build_1d le64 (RInt false W1) (configured [OptWriter E_marked; OptDType E_u8; OptWriter empty_sink]) = Some (Ok w, s)
  /\ takeN 6 (sk_data s) = [0x93] ++ lit "NUMPY".
Proof. eexists _, _. split; [ vm_compute; reflexivity | ]. vm_compute. reflexivity. Qed.
Example C33_edge_2d : exists w s, build_2d le64 (RInt false W1) 5 (configured [OptWriter empty_sink; OptDType E_u8]) = Some (Ok w, s)
  /\ w_shape_info w = Automatic2D 51 5 OrderC.
Proof. eexists _, _. split; [ vm_compute; reflexivity | ]. vm_compute. reflexivity. Qed.

(** * Reading *)
(** C37: all the items. *)
Example C37_edge_all : exists nd, nd_from_bytes le64 (RInt false W1) (npy_text "'|u1'" "(3,)" [7; 8; 9]) = Ok nd /\ nd_to_vec le64 nd = Ok E_three.
Proof. eexists. split; [ vm_compute; reflexivity | ]. vm_compute. reflexivity. Qed.
(** C34: the header text ends where its length says. *)
Example C34_edge_text : exists v, run (read_header_alloc le64) (npy_text "'|u1'" "(3,)" [7; 8; 9]) = (Ok v, [7; 8; 9]).
Proof. eexists. vm_compute. reflexivity. Qed.
(** C31: what a failed read has taken from a source stays taken. *)
Example C31_edge_taken : run_sched (read_exact 4) [Some [1; 2]; None; Some [3]] = (Err EUnexpectedEof, []).
Proof. vm_compute. reflexivity. Qed.
(** C35: how far a [seek_to] can go. *)
Example C35_edge_far : i64_op le64 (2 ^ 63) = Panic /\ i64_op be64 (2 ^ 63) = Ok (- 2 ^ 63)%Z /\ i64_op le64 (2 ^ 63 - 1) = Ok (2 ^ 63 - 1)%Z
  /\ i64_op le64 (- 2 ^ 63) = Ok (- 2 ^ 63)%Z /\ i64_op le64 (- 2 ^ 63 - 1) = Panic.
Proof. repeat apply conj; vm_compute; reflexivity. Qed.
(** C24: a buffer of [isize::MAX] bytes can be had, one byte more cannot. *)
Example C24_edge_alloc : read_vec le32 (2 ^ 31 - 1) = read_exact (2 ^ 31 - 1) /\ read_vec le32 (2 ^ 31) = RPanic
  /\ wzeros le32 (2 ^ 31) = ([], Panic).
Proof. repeat apply conj; vm_compute; reflexivity. Qed.
(** C09, C61: of two things wrong the first is reported. *)
Example C61_edge_order :
  from_parts le64 (DPlain {| ts_endianness := Irrelevant; ts_char := TRawData; ts_size := 2 ^ 64; ts_units := None |}) [2 ^ 32; 2 ^ 32] OrderC = Panic
  /\ E_fails (from_descr (VList [VTuple [VString (lit "a"); VInteger 1; VInteger 2]])) = Some (EData (lit "must be string or list"))
  /\ E_fails (from_descr (VList [VTuple []])) = Some (EData (lit "list entry must contain 2 or 3 items"))
  /\ E_fails (from_descr (VList [VTuple [VString (lit "a")]])) = Some (EData (lit "list entry must contain 2 or 3 items")).
Proof. repeat apply conj; vm_compute; reflexivity. Qed.
(** C18, C23: types that do not fit, and their messages. *)
Example C18_edge_support :
  reader le64 (RFloat F4) (plain Little TFloat 8) = DErr (bad_scalar (reading (RFloat F4)) {| ts_endianness := Little; ts_char := TFloat; ts_size := 8; ts_units := None |})
  /\ reader le64 RBool (plain Irrelevant TBool 2) = DErr (bad_scalar (reading RBool) {| ts_endianness := Irrelevant; ts_char := TBool; ts_size := 2; ts_units := None |})
  /\ reader le64 RString (plain Irrelevant TRawData 4) = DErr (bad_scalar (reading RString) {| ts_endianness := Irrelevant; ts_char := TRawData; ts_size := 4; ts_units := None |})
  /\ reader le32 RString (plain Little TUnicodeStr (2 ^ 32)) = DErr (UsizeOverflow (2 ^ 32))
  /\ reader le32 RVecU32 (plain Little TInt (2 ^ 32)) = DErr (bad_scalar (reading RVecU32) {| ts_endianness := Little; ts_char := TInt; ts_size := 2 ^ 32; ts_units := None |})
  /\ array_inner_dtype (DRecord []) 3 = DErr (ExpectedArray (lit "a record")).
Proof. repeat apply conj; vm_compute; reflexivity. Qed.

(** * Archives *)
(** C40: every array once, whatever else there is and whatever was written twice. *)
Example C40_edge_names : array_names [(lit "readme.txt", []); (lit "a.npy", [1]); (lit "b.npy", [2]); (lit "a.npy", [3])] = [lit "b"; lit "a"].
Proof. vm_compute. reflexivity. Qed.
(** C39: an entry uses up the room of the archive, and fails when there is none left. *)
Definition E_archive (n : N) : npz_writer := {| nz_entries := []; nz_fuel := Some n |}.
Example C39_edge_room : exists z,
  npz_array (lit "a") (extend_and_drop le64 (RInt false W1) E_u8 OrderC [3] E_three) (E_archive 140) = (Ok tt, z) /\ nz_fuel z = Some 7
  /\ exists z', npz_array (lit "a") (extend_and_drop le64 (RInt false W1) E_u8 OrderC [3] E_three) (E_archive 130) = (Err ESink, z') /\ nz_fuel z' = Some 0.
Proof. eexists. split; [ vm_compute; reflexivity | ]. split; [ vm_compute; reflexivity | ]. eexists. split; [ vm_compute; reflexivity | ]. vm_compute. reflexivity. Qed.

(** * Sparse matrices *)
Definition E_csr (shape : string) (indices : bytes) : archive :=
  [E_part "format.npy" "'|S3'" "()" (lit "csr"); E_shape; E_part "indices.npy" "'<i4'" shape indices; E_part "indptr.npy" "'<i4'" "(1,)" [0;0;0;0]; E_part "data.npy" "'|u1'" "(1,)" [9]].
(** C50: an array of indices must be complete; nothing after it is looked at. *)
Example C50_edge_short :
  E_fails (csr_from_npz le64 (RInt false W1) (E_csr "(2,)" [1;0;0;0; 2;0;0])) = Some EUnexpectedEof
  /\ E_fails (csr_from_npz le64 (RInt false W1) (E_csr "(2,)" [1;0;0;0; 2;0;0;0; 3])) = None
  /\ E_fails (csc_from_npz le64 (RInt false W1) (E_csr "(2,)" [1;0;0;0; 2;0;0;0])) = Some (EData (lit "wrong format: expected 'csc', got 'csr'")).
Proof. repeat apply conj; vm_compute; reflexivity. Qed.
(** C51: the format is three bytes; indices are written with four bytes each if all of them fit, also the ends of that range. *)
Example C51_edge_files : exists z z', write_format le64 (lit "coo") npz_new = (Ok tt, z)
  /\ nz_entries z = [(lit "format.npy", E_header "'|S3'" "()" 62 ++ lit "coo")]
  /\ write_indices le64 (lit "row") [(- 2 ^ 31)%Z; (2 ^ 31 - 1)%Z] npz_new = (Ok tt, z')
  /\ nz_entries z' = [(lit "row.npy", E_header "'<i4'" "(2, )" 59 ++ [0;0;0;128; 255;255;255;127])].
Proof. eexists _, _. split; [ vm_compute; reflexivity | ]. split; [ vm_compute; reflexivity | ]. split; vm_compute; reflexivity. Qed.
(** C52: the assertions on the lengths of the data. *)
Example C52_edge_asserts :
  fst (dia_write_npz le64 (RInt false W1) {| dia_shape := (3, 3); dia_data := E_three; dia_offsets := [0%Z; 1%Z] |} npz_new) = Panic
  /\ fst (bsr_write_npz le64 (RInt false W1) {| bsr_shape := (4, 4); bsr_blocksize := (2, 2); bsr_data := E_three; bsr_indices := [0]; bsr_indptr := [0; 1] |} npz_new) = Panic.
Proof. split; vm_compute; reflexivity. Qed.
