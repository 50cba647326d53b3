(** C73: writing a sparse matrix, sound or not. *)
From Verif Require Import M_Base M_Text M_TypeStr M_PyLit M_IO M_Header M_Read M_Serialize M_NpyReader M_Write M_Npz M_Sparse.
From Verif Require Import S_Text S_TypeStr S_DType S_Shape S_Header S_Elem S_Strings S_Reader S_Write S_DText S_File S_Npz S_Sparse S_SparseOut.
From Verif Require Import P_Base P_Header P_Sparse P_SparseOut T_Elem T_Reader T_Write T_Sparse.
Open Scope N_scope.

(** Everything that happens: the arrays of the format other than the data are added, whole, in any case; then the data, every byte of it
    determined, and success; or a panic, exactly when what is demanded is not met.  Never an error. *)
Theorem C73_exact : forall c t d m z, wf_cfg c -> numbers_ok (c_usize_max c) m -> data_writable c t d (data_of m) -> nz_fuel z = None ->
  exists r new last, sparse_write_npz c t m z = (r, {| nz_entries := nz_entries z ++ new ++ last; nz_fuel := None |})
  /\ (forall c', wf_cfg c' -> Forall2 (holds c') (removelast (layout c t d m)) new) /\ data_outcome c t d m r last.
Proof. exact sparse_exact. Qed.
Print Assumptions C73_exact.
(** What the panic leaves behind is not a matrix, unless data of another was there before. *)
Theorem C73_left_unreadable : forall c c' t d t' m z z', wf_cfg c -> wf_cfg c' -> numbers_ok (c_usize_max c) m -> data_writable c t d (data_of m) -> nz_fuel z = None ->
  ~ In (lit "data.npy") (map fst (nz_entries z)) -> sparse_write_npz c t m z = (Panic, z') ->
  sparse_from_npz c' t' (nz_entries z') = Err (EData (lit "missing array 'data' from sparse array")).
Proof. exact left_unreadable. Qed.
Print Assumptions C73_left_unreadable.
(** The documented panics happen where overflow is checked, or where there is none. *)
Theorem C73_documented_partial : forall c t d m z, wf_cfg c -> numbers_ok (c_usize_max c) m -> data_writable c t d (data_of m) -> nz_fuel z = None ->
  (c_ovf_panics c = true \/ match m with Bsr b => block_items b <= c_usize_max c | _ => True end) -> ~ documented m -> exists z', sparse_write_npz c t m z = (Panic, z').
Proof. exact documented_panics. Qed.
Print Assumptions C73_documented_partial.
(** Where overflow wraps, a matrix with too few data may be written, and then no machine can read it. *)
Theorem C73_wrapped_unreadable : forall c c' t d t' m z z' r, wf_cfg c -> wf_cfg c' -> numbers_ok (c_usize_max c) (Bsr m) -> data_writable c t d (bsr_data m) -> nz_fuel z = None -> 0 < size d ->
  ~ has_object d -> sizes_fit (c_usize_max c') d -> strings_fit (c_usize_max c') d -> no_overflow (data_shape (Bsr m)) -> lenN (bsr_data m) <> block_items m ->
  bsr_write_npz c t m z = (Ok tt, z') -> sparse_from_npz c' t' (nz_entries z') <> Ok r.
Proof. exact wrapped_unreadable. Qed.
Print Assumptions C73_wrapped_unreadable.

(** Three offsets and five items; a block of 2 by 2 and three items; one of 65536 by 65536 and no items. *)
Definition C73_dia : dia := {| dia_shape := (4, 4); dia_data := [XFloat 1; XFloat 2; XFloat 3; XFloat 4; XFloat 5]; dia_offsets := [-1; 0; 1]%Z |}.
Definition C73_bsr : bsr := {| bsr_shape := (4, 6); bsr_blocksize := (2, 2); bsr_data := [XFloat 1; XFloat 2; XFloat 3]; bsr_indices := [1]; bsr_indptr := [0; 1; 1] |}.
Definition C73_wrap : bsr := {| bsr_shape := (65536, 65536); bsr_blocksize := (65536, 65536); bsr_data := []; bsr_indices := [0]; bsr_indptr := [0; 1] |}.
Definition C73_wrap64 : bsr := {| bsr_shape := (4294967296, 4294967296); bsr_blocksize := (4294967296, 4294967296); bsr_data := []; bsr_indices := [0]; bsr_indptr := [0; 1] |}.
Definition C73_huge : bsr := {| bsr_shape := (0, 0); bsr_blocksize := (9223372036854775808, 0); bsr_data := []; bsr_indices := [0; 0]; bsr_indptr := [0; 2] |}.
Ltac numbers := unfold numbers_ok, compressed_ok, shape_ok, u64_ok, i64_ok;
    cbn [data_of fst snd le64 be64 le32 c_usize_max C73_dia C73_bsr C73_wrap C73_wrap64 C73_huge dia_shape dia_data dia_offsets bsr_shape bsr_blocksize bsr_data bsr_indices bsr_indptr]; unfold usize64, usize32;
    change (2 ^ 64) with 18446744073709551616; change (2 ^ 32 - 1) with 4294967295; change (2 ^ 63)%Z with 9223372036854775808%Z; unfold lenN; cbn [List.length N.of_nat];
    repeat match goal with |- _ /\ _ => split | |- Forall _ [] => constructor | |- Forall _ (_ :: _) => constructor end; try lia.
Lemma C73_floats c vs : wf_cfg c -> Forall (fun v => exists n, v = XFloat n /\ n < 7) vs -> data_writable c (RFloat F8) (plain (if c_big c then Big else Little) TFloat 8) vs.
Proof.
  intros Hc Hv. pose proof (usize_small c 8 Hc ltac:(lia)). unfold data_writable. split; [ destruct c as [ [ | ] um op ]; reflexivity | ]. split; [ cbn; auto | ]. split; [ exact I | ].
  split; [ destruct (c_big c); vm_compute; discriminate | ]. split; (eapply Forall_impl; [ | exact Hv ]; intros v (n & -> & Hn)); [ | exact I ]. cbn. change (2 ^ (8 * 8)) with 18446744073709551616. lia.
Qed.
Example C73_case : numbers_ok usize64 (Dia C73_dia) /\ numbers_ok usize64 (Bsr C73_bsr)
  /\ data_writable le64 (RFloat F8) (plain Little TFloat 8) (dia_data C73_dia) /\ data_writable le64 (RFloat F8) (plain Little TFloat 8) (bsr_data C73_bsr)
  /\ ~ documented (Dia C73_dia) /\ ~ documented (Bsr C73_bsr)
  /\ (exists z', sparse_write_npz le64 (RFloat F8) (Dia C73_dia) npz_new = (Panic, z') /\ map fst (nz_entries z') = [lit "format.npy"; lit "shape.npy"; lit "offsets.npy"]
      /\ sparse_from_npz be64 (RFloat F8) (nz_entries z') = Err (EData (lit "missing array 'data' from sparse array")))
  /\ (exists z', sparse_write_npz be64 (RFloat F8) (Bsr C73_bsr) npz_new = (Panic, z') /\ map fst (nz_entries z') = [lit "format.npy"; lit "shape.npy"; lit "indices.npy"; lit "indptr.npy"]
      /\ sparse_from_npz le64 (RFloat F8) (nz_entries z') = Err (EData (lit "missing array 'data' from sparse array")))
  /\ (exists z', sparse_write_npz le64 (RFloat F8) (Bsr S_bsr) npz_new = (Ok tt, z') /\ demanded le64 (Bsr S_bsr) /\ documented (Bsr S_bsr) /\ List.length (nz_entries z') = 5%nat
      /\ dropN 128 (snd (last (nz_entries z') ([], []))) = [1; 0; 0; 0; 0; 0; 0; 0; 2; 0; 0; 0; 0; 0; 0; 0; 3; 0; 0; 0; 0; 0; 0; 0; 4; 0; 0; 0; 0; 0; 0; 0]).
Proof.
  split; [ numbers | ]. split; [ numbers | ].
  split; [ apply (C73_floats le64); [ left; reflexivity | repeat (constructor; [ eexists; split; [ reflexivity | lia ] | ]); constructor ] | ].
  split; [ apply (C73_floats le64); [ left; reflexivity | repeat (constructor; [ eexists; split; [ reflexivity | lia ] | ]); constructor ] | ].
  split; [ intros H; apply N.mod_divide in H; discriminate | ]. split; [ discriminate | ].
  split; [ eexists; split; [ vm_compute; reflexivity | split; vm_compute; reflexivity ] | ]. split; [ eexists; split; [ vm_compute; reflexivity | split; vm_compute; reflexivity ] | ].
  eexists. split; [ vm_compute; reflexivity | ]. split; [ vm_compute; intuition discriminate | ]. split; [ reflexivity | ]. split; [ reflexivity | vm_compute; reflexivity ].
Qed.
(** The documented panic that does not happen: in a 32-bit build with wrapping arithmetic a block of 2^32 items is taken to have none. *)
Theorem C73_documented_refuted : exists c m z', wf_cfg c /\ numbers_ok (c_usize_max c) (Bsr m) /\ ~ documented (Bsr m) /\ bsr_write_npz c (RFloat F8) m npz_new = (Ok tt, z')
  /\ forall c' t' r, wf_cfg c' -> sparse_from_npz c' t' (nz_entries z') <> Ok r.
Proof.
  exists le32, C73_wrap. eexists. split; [ right; reflexivity | ]. split; [ numbers | ]. split; [ discriminate | ]. split; [ vm_compute; reflexivity | ]. intros c' t' r Hc'.
  pose proof (usize_small c' 8 Hc' ltac:(lia)) as H8.
  eapply (C73_wrapped_unreadable le32 c' (RFloat F8) (plain Little TFloat 8) t' C73_wrap npz_new);
    [ right; reflexivity | exact Hc' | numbers | apply (C73_floats le32); [ right; reflexivity | apply Forall_nil ] | reflexivity | reflexivity | intros Hx; inversion Hx as [ ? Ht | | ]; discriminate Ht | cbn; auto | exact I | | discriminate | vm_compute; reflexivity ].
  change (no_overflow [1; 65536; 65536]). intros [ | [ | [ | [ | k ] ] ] ]; split; try reflexivity; cbn; destruct k; reflexivity.
Qed.
Print Assumptions C73_documented_refuted.
(** Likewise on 64 bits; but there the same overflow happens in the reader, so that the matrix reads back as it was, unless overflow is checked. *)
Example C73_wrap64_case : exists z', bsr_write_npz be64 (RFloat F8) C73_wrap64 npz_new = (Ok tt, z') /\ ~ documented (Bsr C73_wrap64)
  /\ sparse_from_npz be64 (RFloat F8) (nz_entries z') = Ok (Bsr C73_wrap64) /\ sparse_from_npz le64 (RFloat F8) (nz_entries z') = Panic.
Proof. eexists. split; [ vm_compute; reflexivity | ]. split; [ discriminate | ]. split; vm_compute; reflexivity. Qed.
(** Panics that are not documented: overflow on the way to a product that is zero. *)
Theorem C73_undocumented_refuted : exists z', documented (Bsr C73_huge) /\ numbers_ok usize64 (Bsr C73_huge) /\ bsr_write_npz le64 (RFloat F8) C73_huge npz_new = (Panic, z').
Proof. eexists. split; [ reflexivity | ]. split; [ numbers | vm_compute; reflexivity ]. Qed.
Print Assumptions C73_undocumented_refuted.
(** With the data of another matrix there before, what a panic leaves behind is a matrix: the new indices with the old data. *)
Theorem C73_mixed_refuted : exists z z' m, sparse_write_npz le64 (RFloat F8) (Bsr S_bsr) npz_new = (Ok tt, z) /\ sparse_write_npz le64 (RFloat F8) (Bsr C73_bsr) z = (Panic, z')
  /\ sparse_from_npz le64 (RFloat F8) (nz_entries z') = Ok (Bsr m) /\ bsr_data m = bsr_data S_bsr /\ bsr_indices m = bsr_indices C73_bsr /\ bsr_indices m <> bsr_indices S_bsr.
Proof.
  eexists _, _, _. split; [ vm_compute; reflexivity | ]. split; [ vm_compute; reflexivity | ]. split; [ vm_compute; reflexivity | ]. split; [ reflexivity | ]. split; [ reflexivity | discriminate ].
Qed.
Print Assumptions C73_mixed_refuted.
