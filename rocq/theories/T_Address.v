(** C57: elements by their indices; and C17: only bytes are written. *)
From Verif Require Import M_Base M_Text M_TypeStr M_PyLit M_IO M_Header M_Read M_Serialize M_NpyReader M_Write.
From Verif Require Import S_TypeStr S_DType S_Shape S_Header S_Elem S_Strings S_Reader S_Write S_Address P_Base P_Header P_Shape P_Elem P_Bytes P_Address T_Elem.
Open Scope N_scope.

(** However writing ends, the output contains bytes if it did before. *)
Theorem C17_only_bytes : forall c t d o h seekable vs s r s', wf_dtype d -> Forall (has_type t) vs -> bytes_ok (sk_data s) ->
  write_file c t d o h seekable vs s = (r, s') -> bytes_ok (sk_data s').
Proof. exact written_bytes. Qed.
Print Assumptions C17_only_bytes.

(** * C57 *)
(** If a file holds the values of [f] at all indices in storage order, then after any calls [read_at] at the index's position under
    [strides()] gives the value of [f] there. *)
Theorem C57_element_by_index : forall c t data pos d o shape f, bytes_ok data -> no_overflow shape -> strings_fit (c_usize_max c) d ->
  reads_as c t data pos d o shape (map f (storage_order o shape)) -> lenN data < 2 ^ 63 -> c_ovf_panics c = false \/ count shape < 2 ^ 63 ->
  exists file src r, npy_new c {| cur_data := data; cur_pos := pos |} = (Ok file, src) /\ npy_data c t file = DOk r
  /\ h_shape (nf_header file) = shape /\ h_order (nf_header file) = o
  /\ forall idx, in_bounds shape idx -> forall calls,
     finally (actual c (calls ++ [CReadAt (flat_index (h_strides (nf_header file)) idx)]) r) = OItem (f idx).
Proof. exact by_index. Qed.
Print Assumptions C57_element_by_index.

(** From writer to reader, for each kind of writer, between machines. *)
Theorem C57_written_by_index : forall c c' t d o h shape f s s', wf_dtype d -> Forall (has_type t) (map f (storage_order o shape)) -> count shape < 2 ^ 64 ->
  hint_ok h -> final_shape h o (count shape) = Some shape -> no_overflow shape -> bytes_ok (sk_data s) ->
  write_file c t d o h (output_kind h) (map f (storage_order o shape)) s = (Ok tt, s') ->
  accepts (c_usize_max c') Reading t d -> sizes_fit (c_usize_max c') d -> strings_fit (c_usize_max c') d ->
  lenN (sk_data s') < 2 ^ 63 -> c_ovf_panics c' = false \/ count shape < 2 ^ 63 ->
  exists file src r, npy_new c' {| cur_data := sk_data s'; cur_pos := sk_pos s |} = (Ok file, src) /\ npy_data c' t file = DOk r
  /\ h_shape (nf_header file) = shape /\ h_order (nf_header file) = o
  /\ forall idx, in_bounds shape idx -> forall calls,
     finally (actual c' (calls ++ [CReadAt (flat_index (h_strides (nf_header file)) idx)]) r) = OItem (read_back t d (f idx)).
Proof. exact written_by_index. Qed.
Print Assumptions C57_written_by_index.

(** Row [i], column [j] of three rows of two columns pushed in Fortran order (as two columns of three), behind something else. *)
Definition C57_f (idx : list N) : val := match idx with [i; j] => XInt (10 * Z.of_N i + Z.of_N j) | _ => XInt 0 end.
Definition C57_sink : sink := {| sk_data := [1; 2; 3; 4; 5]; sk_pos := 5; sk_fuel := None |}.
Example C57_case : exists s', let shape := [3; 2] in let d := plain Big TInt 2 in
  wf_dtype d /\ Forall (has_type (RInt true W2)) (map C57_f (storage_order OrderFortran shape)) /\ hint_ok (TwoDimensional 3)
  /\ final_shape (TwoDimensional 3) OrderFortran (count shape) = Some shape /\ no_overflow shape /\ bytes_ok (sk_data C57_sink)
  /\ write_file le64 (RInt true W2) d OrderFortran (TwoDimensional 3) true (map C57_f (storage_order OrderFortran shape)) C57_sink = (Ok tt, s')
  /\ accepts usize64 Reading (RInt true W2) d /\ sizes_fit usize64 d /\ strings_fit usize64 d /\ lenN (sk_data s') < 2 ^ 63
  /\ in_bounds shape [2; 1] /\ read_back (RInt true W2) d (C57_f [2; 1]) = XInt 21.
Proof.
  eexists. cbv zeta. split; [ wf_case | ]. split; [ cbn; repeat constructor; cbn; lia | ]. split; [ reflexivity | ]. split; [ reflexivity | ].
  split; [ apply count_pos_no_overflow; split; reflexivity | ]. split; [ repeat constructor | ]. split; [ vm_compute; reflexivity | ].
  split; [ apply (reader_accepts le64); eexists; vm_compute; reflexivity | ]. split; [ | split; [ | split; [ vm_compute; reflexivity | split; [ repeat constructor | reflexivity ] ] ] ].
  - vm_compute. split; discriminate.
  - exact I.
Qed.
