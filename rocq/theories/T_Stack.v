(** C89: how much stack a type description takes. *)
From Verif Require Import M_Base M_Text M_TypeStr M_PyLit M_IO M_Header M_Read M_Stack S_Dict S_Stack P_Base P_Stack T_Elem T_Reader.
Open Scope N_scope.

(** * C89: the stack for a type description is its nesting *)
(** A description that is in order is read if there is room for as many calls as its DType is nested deep, and the stack is exhausted otherwise. *)
Theorem C89_exact : forall n v d, describes v d ->
  (from_descr_within n v = Some (Ok d) <-> nesting d <= N.of_nat n) /\ (from_descr_within n v = None <-> N.of_nat n < nesting d).
Proof. exact stack_iff. Qed.
(** Whatever a header says, in order or not, as many calls as the header has bytes are enough, and then the result is that without a limit. *)
Theorem C89_enough : forall txt pairs k dv, Forall (fun b => b < 256) txt -> parse_header_text txt = Ok (VDict pairs) -> In (k, dv) pairs ->
  forall n, lenN txt <= N.of_nat n -> from_descr_within n dv = Some (from_descr dv).
Proof. exact header_stack. Qed.
(** A limit changes nothing but that the stack may be exhausted. *)
Theorem C89_same : forall n v r, from_descr_within n v = Some r -> r = from_descr v.
Proof. exact stack_sound. Qed.
(** No stack is enough for all files: twelve bytes more per call, and the file is one that machines without the limit open. *)
Theorem C89_no_fixed_stack : forall n, N.of_nat n <= 10 ^ 8 -> exists file, lenN file <= 12 * N.of_nat n + 200
  /\ (forall c, exists h, run (read_and_interpret c) file = (Ok h, []) /\ nesting (h_dtype h) = N.of_nat n + 1)
  /\ exists txt pairs dv, preamble_of file txt /\ parse_header_text txt = Ok (VDict pairs) /\ last_value (lit "descr") pairs dv /\ from_descr_within n dv = None.
Proof. exact deep_file. Qed.
(** The DType of a file is made of no more types than the part of the file before the data has bytes. *)
Theorem C89_types : forall c bs h rest, Forall (fun b => b < 256) bs -> run (read_and_interpret c) bs = (Ok h, rest) -> types (h_dtype h) + lenN rest <= lenN bs.
Proof. exact file_types. Qed.

(** [num_bytes], which opening a file calls as well, goes through arrays too: it needs as much stack as the DType is high, whatever the result. *)
Theorem C89_size_exact : forall c n d,
  (num_bytes_within n c d = Some (num_bytes c d) <-> height d <= N.of_nat n) /\ (num_bytes_within n c d = None <-> N.of_nat n < height d).
Proof. exact size_iff. Qed.
(** That is no more than the DType is made of types, so never more than the file has bytes; *)
Theorem C89_size_enough : forall c bs h rest n, Forall (fun b => b < 256) bs -> run (read_and_interpret c) bs = (Ok h, rest) -> lenN bs <= N.of_nat n ->
  num_bytes_within n c (h_dtype h) = Some (num_bytes c (h_dtype h)).
Proof.
  intros c bs h rest n Hb H Hn. apply (proj1 (size_iff c n (h_dtype h))). pose proof (file_types c bs h rest Hb H). pose proof (height_types (h_dtype h)). lia.
Qed.
(** but two bytes more per call exhaust any stack. *)
Theorem C89_size_no_fixed_stack : forall n, (0 < n)%nat -> N.of_nat n <= 10 ^ 9 -> exists file, lenN file <= 2 * N.of_nat n + 200
  /\ forall c, 1 <= c_usize_max c -> exists h, run (read_and_interpret c) file = (Ok h, []) /\ num_bytes_within n c (h_dtype h) = None.
Proof. exact tall_file. Qed.

(** A record in an array of two in a record: three types deep, four types. *)
Definition C89_text : bytes := lit "{'descr': [('a', [('b', '<u2')], (2,))], 'fortran_order': False, 'shape': (), }".
Definition C89_descr : value := VList [VTuple [VString (lit "a"); VList [VTuple [VString (lit "b"); VString (lit "<u2")]]; VTuple [VInteger 2]]].
Definition C89_dtype : dtype := DRecord [(lit "a", DArray 2 (DRecord [(lit "b", plain Little TUint 2)]))].
Example C89_case :
  (exists pairs, parse_header_text C89_text = Ok (VDict pairs) /\ In (VString (lit "descr"), C89_descr) pairs /\ Forall (fun b => b < 256) C89_text)
  /\ from_descr C89_descr = Ok C89_dtype /\ nesting C89_dtype = 3 /\ types C89_dtype = 4
  /\ from_descr_within 3 C89_descr = Some (Ok C89_dtype) /\ from_descr_within 2 C89_descr = None
  /\ from_descr_within 2 (VList [VTuple [VString (lit "b"); VInteger 1]]) = Some (Err (EData (lit "must be string or list")))
  /\ (exists h, run (read_and_interpret le64) (npy_text "[('a', [('b', '<u2')], (2,))]" "()" [1; 0; 2; 0]) = (Ok h, [1; 0; 2; 0]) /\ h_dtype h = C89_dtype).
Proof.
  split; [ eexists; split; [ vm_compute; reflexivity | ]; split; [ now left | vm_compute; repeat constructor ] | ].
  split; [ vm_compute; reflexivity | ]. split; [ vm_compute; reflexivity | ]. split; [ vm_compute; reflexivity | ]. split; [ vm_compute; reflexivity | ]. split; [ vm_compute; reflexivity | ].
  split; [ vm_compute; reflexivity | ]. eexists. split; vm_compute; reflexivity.
Qed.
(** Two fields, one of them a list with a shape, on a stack for two calls. *)
Example C89_case_fields :
  from_descr_within 2 (VList [VList [VString (lit "a"); VString (lit "<u2"); VTuple [VInteger 2; VInteger 3]]; VTuple [VString (lit "b"); VString (lit "|S1")]])
  = Some (Ok (DRecord [(lit "a", DArray 2 (DArray 3 (plain Little TUint 2))); (lit "b", plain Irrelevant TByteStr 1)])).
Proof. vm_compute. reflexivity. Qed.
(** Four levels with the array; the member without a size does not keep the others from being asked. *)
Example C89_case_size : height C89_dtype = 4 /\ num_bytes_within 4 le64 C89_dtype = Some (Some 4) /\ num_bytes_within 3 le64 C89_dtype = None
  /\ num_bytes_within 4 le64 (DRecord [(lit "o", plain Irrelevant TObject 0); (lit "r", C89_dtype)]) = None
  /\ num_bytes_within 5 le64 (DRecord [(lit "o", plain Irrelevant TObject 0); (lit "r", C89_dtype)]) = Some None
  /\ num_bytes_within 5 le64 (DRecord [(lit "a", plain Little TUint 8); (lit "r", C89_dtype)]) = Some (Some 12).
Proof. vm_compute. repeat apply conj; reflexivity. Qed.
Example C89_case_describes : describes C89_descr C89_dtype.
Proof. apply P_Interp.descr_exact. vm_compute. reflexivity. Qed.

Print Assumptions C89_exact.
Print Assumptions C89_enough.
Print Assumptions C89_same.
Print Assumptions C89_no_fixed_stack.
Print Assumptions C89_types.
Print Assumptions C89_size_exact.
Print Assumptions C89_size_enough.
Print Assumptions C89_size_no_fixed_stack.
