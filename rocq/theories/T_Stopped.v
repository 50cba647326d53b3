(** C83: a sparse matrix written to an archive whose output gives out. *)
From Verif Require Import M_Base M_Text M_TypeStr M_PyLit M_IO M_Header M_Read M_Serialize M_NpyReader M_Write M_Npz M_Sparse.
From Verif Require Import S_Text S_TypeStr S_DType S_Shape S_Header S_Elem S_Strings S_Write S_Npz S_Sparse S_SparseOut S_Stopped.
From Verif Require Import P_Base P_Sparse P_SparseOut P_Stopped P_Refused T_Elem T_Sparse T_SparseOut.
Require Import ZifyBool ZifyNat ZifyN.
Open Scope N_scope.

(** Any matrix, any archive, any amount of output: everything as without a limit; or, only if there is not enough for that, an error and a
    beginning of what would have been there. *)
Theorem C83_exact : forall c t m a n, exists r new,
  sparse_write_npz c t m {| nz_entries := a; nz_fuel := None |} = (r, {| nz_entries := a ++ new; nz_fuel := None |})
  /\ ((exists k, sparse_write_npz c t m {| nz_entries := a; nz_fuel := Some n |} = (r, {| nz_entries := a ++ new; nz_fuel := Some k |}))
      \/ n < needed new /\ exists left k, stopped new left /\ sparse_write_npz c t m {| nz_entries := a; nz_fuel := Some n |} = (Err ESink, {| nz_entries := a ++ left; nz_fuel := Some k |})).
Proof.
  intros c t m a n. destruct (sparse_cuts c t m a) as (r & new & E & H). exists r, new. split; [ exact E | ]. destruct (H n) as [ (k & _ & H') | (lf & k & L & Hs & H') ]; [ left; eauto | right; eauto 6 ].
Qed.
Print Assumptions C83_exact.
(** Unless the write succeeded there is no matrix: whoever reads the archive, as whichever type and format, gets none. *)
Theorem C83_never_mistaken : forall c c' t d t' m a n r z', wf_cfg c -> wf_cfg c' -> numbers_ok (c_usize_max c) m -> data_writable c t d (data_of m) -> no_overflow (data_shape m) ->
  sizes_fit (c_usize_max c') d -> strings_fit (c_usize_max c') d ->
  (forall name, In name (members (format_of m)) -> ~ In (name ++ lit ".npy") (map fst a)) ->
  sparse_write_npz c t m {| nz_entries := a; nz_fuel := Some n |} = (r, z') -> r <> Ok tt ->
  forall m', (forall f, read_as f c' t' (nz_entries z') <> Ok m') /\ sparse_from_npz c' t' (nz_entries z') <> Ok m'.
Proof. exact never_mistaken. Qed.
Print Assumptions C83_never_mistaken.
(** In an archive that held nothing before, whoever reads gets an error, and no panic. *)
Theorem C83_refused : forall c c' t d t' m n r z', wf_cfg c -> wf_cfg c' -> numbers_ok (c_usize_max c) m -> data_writable c t d (data_of m) -> no_overflow (data_shape m) ->
  sizes_fit (c_usize_max c') d -> strings_fit (c_usize_max c') d ->
  sparse_write_npz c t m {| nz_entries := []; nz_fuel := Some n |} = (r, z') -> r <> Ok tt ->
  (forall f, exists e, read_as f c' t' (nz_entries z') = Err e) /\ exists e, sparse_from_npz c' t' (nz_entries z') = Err e.
Proof. exact refused. Qed.
Print Assumptions C83_refused.
(** If it succeeded the matrix is there. *)
Theorem C83_success : forall c c' t d m a n z', wf_cfg c -> wf_cfg c' -> matrix_ok (N.min (c_usize_max c) (c_usize_max c')) m -> data_ok c c' t d (data_of m) ->
  sparse_write_npz c t m {| nz_entries := a; nz_fuel := Some n |} = (Ok tt, z') -> sparse_from_npz c' t (nz_entries z') = Ok m.
Proof. intros c c' t d m a n z' Hc Hc' Hm Hd H. exact (proj1 (sparse_round_trip c c' t d m _ z' Hc Hc' Hm Hd H)). Qed.
Print Assumptions C83_success.
(** The matrix needs 131, 144, 140, 140 and 152 bytes.  After 300 effects there are the format, the shape and a piece of the indices; after
    715 everything but a byte; after 716 everything but the last flush, whose failure the drop of the writer hides. *)
Definition C83_left (n : N) : res unit * archive := let '(r, z) := sparse_write_npz le64 (RFloat F8) (Csr S_csr) {| nz_entries := []; nz_fuel := Some n |} in (r, nz_entries z).
Example C83_case : map (fun n => (fst (C83_left n), map (fun e => lenN (snd e)) (snd (C83_left n)))) [0; 1; 132; 133; 300; 715; 716; 717]
    = [ (Err ESink, []); (Err ESink, [0]); (Err ESink, [131]); (Err ESink, [131]); (Err ESink, [131; 144; 20]); (Err ESink, [131; 144; 140; 140; 151]); (Ok tt, [131; 144; 140; 140; 152]); (Ok tt, [131; 144; 140; 140; 152]) ]
  /\ numbers_ok usize64 (Csr S_csr) /\ data_writable le64 (RFloat F8) (plain Little TFloat 8) (data_of (Csr S_csr)) /\ no_overflow (data_shape (Csr S_csr))
  /\ Forall (fun n => exists e, sparse_from_npz be64 (RFloat F8) (snd (C83_left n)) = Err e) [0; 1; 132; 133; 300; 715] /\ sparse_from_npz be64 (RFloat F8) (snd (C83_left 716)) = Ok (Csr S_csr)
  /\ needed (snd (C83_left 716)) = 717.
Proof.
  split; [ vm_compute; reflexivity | ].
  split; [ split; [ vm_compute; discriminate | ]; unfold compressed_ok, shape_ok, u64_ok; repeat split; repeat constructor; vm_compute; (reflexivity || discriminate) | ].
  split; [ apply (C73_floats le64); [ left; reflexivity | repeat (constructor; [ eexists; split; [ reflexivity | lia ] | ]); constructor ] | ].
  split; [ intros [ | [ | k ] ]; split; try reflexivity; cbn; destruct k; reflexivity | ].
  split; [ repeat (constructor; [ eexists; vm_compute; reflexivity | ]); constructor | ]. split; vm_compute; reflexivity.
Qed.
(** The names matter: over an older matrix of the same format in the archive, a failed write leaves a matrix that is neither. *)
Definition C83_old : csr := {| csr_shape := (7, 7); csr_data := [XFloat 5]; csr_indices := [6]; csr_indptr := [0; 1] |}.
Theorem C83_mixed_refuted : exists z z' m, sparse_write_npz le64 (RFloat F8) (Csr C83_old) npz_new = (Ok tt, z)
  /\ sparse_write_npz le64 (RFloat F8) (Csr S_csr) {| nz_entries := nz_entries z; nz_fuel := Some 421 |} = (Err ESink, z')
  /\ sparse_from_npz le64 (RFloat F8) (nz_entries z') = Ok (Csr m) /\ csr_shape m = csr_shape S_csr /\ csr_indices m = csr_indices S_csr /\ csr_data m = csr_data C83_old.
Proof.
  eexists _, _, _. split; [ vm_compute; reflexivity | ]. split; [ vm_compute; reflexivity | ]. split; [ vm_compute; reflexivity | ]. repeat split; reflexivity.
Qed.
Print Assumptions C83_mixed_refuted.
