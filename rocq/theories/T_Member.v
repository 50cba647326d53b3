(** Theorems about members that are arrays, and members of records by their positions. *)
From Coq Require Import String.
From Verif Require Import M_Base M_Text M_TypeStr M_IO M_Header M_Serialize M_DTypeErr.
From Verif Require Import S_Text S_TypeStr S_DType S_Shape S_Header S_Elem S_Strings S_Member.
From Verif Require Import P_Base P_Header P_Elem P_Member T_Elem.
Open Scope N_scope.

(** A Rust array of arrays is accepted for a dtype exactly if it has the same shape, first axis outside. *)
Theorem C67_accepts : forall c t d shape shape', (forall n t', t <> RArray n t') -> (forall n d', d <> DArray n d') ->
  ((exists r, reader c (nested_type shape t) (nested_dtype shape' d) = DOk r) <-> shape = shape' /\ exists r, reader c t d = DOk r)
  /\ ((exists w, writer c (nested_type shape t) (nested_dtype shape' d) = DOk w) <-> shape = shape' /\ exists w, writer c t d = DOk w).
Proof. exact nested_accepted. Qed.
Print Assumptions C67_accepts.
(** Its values are the arrays of the shape, *)
Theorem C67_values : forall t shape v, has_type (nested_type shape t) v <-> exists f, v = nested shape f /\ forall idx, in_bounds shape idx -> has_type t (f idx).
Proof. exact has_type_nested. Qed.
Print Assumptions C67_values.
(** and each element is read from and written to the bytes at its place in C order. *)
Theorem C67_reads : forall c t d shape r rd bs rest v, wf_dtype (nested_dtype shape d) -> strings_fit (c_usize_max c) d ->
  reader c (nested_type shape t) (nested_dtype shape d) = DOk r -> reader c t d = DOk rd -> bytes_ok bs -> lenN bs = count shape * size d ->
  run (read_one c r) (bs ++ rest) = (Ok v, rest) <->
  exists f, v = nested shape f /\ forall idx, in_bounds shape idx -> run (read_one c rd) (element_at shape (size d) idx bs) = (Ok (f idx), []).
Proof. exact reads_nested. Qed.
Print Assumptions C67_reads.
Theorem C67_writes : forall c t d shape w wd f out, wf_dtype (nested_dtype shape d) -> strings_fit (c_usize_max c) d ->
  writer c (nested_type shape t) (nested_dtype shape d) = DOk w -> writer c t d = DOk wd -> (forall idx, in_bounds shape idx -> has_type t (f idx)) ->
  write_one c w (nested shape f) = (out, Ok tt) <->
  lenN out = count shape * size d /\ forall idx, in_bounds shape idx -> write_one c wd (f idx) = (element_at shape (size d) idx out, Ok tt).
Proof. exact writes_nested. Qed.
Print Assumptions C67_writes.

(** A member of a record comes after the members before it. *)
Theorem C67_member_read : forall c fs ds r bs rest v, wf_dtype (DRecord ds) -> strings_fit (c_usize_max c) (DRecord ds) ->
  reader c (RStruct fs) (DRecord ds) = DOk r -> bytes_ok bs -> lenN bs = size (DRecord ds) ->
  run (read_one c r) (bs ++ rest) = (Ok v, rest) <->
  exists vs, v = XRec vs /\ lenN vs = lenN fs /\ forall k name t name' d rd x, nth_error fs k = Some (name, t) -> nth_error ds k = Some (name', d) -> nth_error vs k = Some x ->
    reader c t d = DOk rd -> run (read_one c rd) (takeN (size d) (dropN (size (DRecord (firstn k ds))) bs)) = (Ok x, []).
Proof. exact reads_member. Qed.
Print Assumptions C67_member_read.
Theorem C67_member_written : forall c fs ds w vs out, wf_dtype (DRecord ds) -> strings_fit (c_usize_max c) (DRecord ds) ->
  writer c (RStruct fs) (DRecord ds) = DOk w -> has_type (RStruct fs) (XRec vs) ->
  write_one c w (XRec vs) = (out, Ok tt) <->
  lenN out = size (DRecord ds) /\ forall k name t name' d wd x, nth_error fs k = Some (name, t) -> nth_error ds k = Some (name', d) -> nth_error vs k = Some x ->
    writer c t d = DOk wd -> write_one c wd x = (takeN (size d) (dropN (size (DRecord (firstn k ds))) out), Ok tt).
Proof. exact writes_member. Qed.
Print Assumptions C67_member_written.

(** The example of the documentation. *)
Example C67_case : let shape := [4; 3] in let d := plain Little TInt 4 in
  nested_type shape (RInt true W4) = RArray 4 (RArray 3 (RInt true W4))
  /\ dtype_parse (lit "[('a', '<i4', (4, 3))]") = Ok (DRecord [(lit "a", nested_dtype shape d)])
  /\ (exists r, reader le64 (RStruct [(lit "a", nested_type shape (RInt true W4))]) (DRecord [(lit "a", nested_dtype shape d)]) = DOk r)
  /\ wf_dtype (nested_dtype shape d) /\ strings_fit (c_usize_max le64) d /\ in_bounds shape [2; 1] /\ row_offset shape [2; 1] = 7.
Proof.
  cbv zeta. split; [ reflexivity | ]. split; [ vm_compute; reflexivity | ]. split; [ eexists; vm_compute; reflexivity | ]. split; [ wf_case | ].
  split; [ exact I | ]. split; [ repeat constructor | reflexivity ].
Qed.
