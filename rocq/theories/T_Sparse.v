(** C41 to C43: sparse matrices. *)
From Verif Require Import M_Base M_Text M_TypeStr M_PyLit M_IO M_Header M_Read M_Serialize M_NpyReader M_Write M_Npz M_Sparse.
From Verif Require Import S_TypeStr S_DType S_Shape S_Header S_Elem S_Strings S_Reader S_Write S_Npz S_Sparse
  P_Base P_Text P_Header P_Sink P_Shape P_WriteHeader P_Writer P_WriteFile P_Session P_Whole P_Number P_Elem P_Codec P_Strings P_Default P_ElemT P_Npz P_Sparse T_Elem T_Reader T_Write.
Open Scope N_scope.

(** * C41: round trips *)
(** A matrix written to any archive by any machine reads back on any other as itself, through the dynamic type and through its own type;
    through the type of another format it is an error. *)
Theorem C41_round_trip : forall c c' t d m z z', wf_cfg c -> wf_cfg c' -> matrix_ok (N.min (c_usize_max c) (c_usize_max c')) m -> data_ok c c' t d (data_of m) ->
  sparse_write_npz c t m z = (Ok tt, z') ->
  sparse_from_npz c' t (nz_entries z') = Ok m /\ read_as (format_of m) c' t (nz_entries z') = Ok m
  /\ forall f, f <> format_of m -> exists e, read_as f c' t (nz_entries z') = Err e.
Proof. exact sparse_round_trip. Qed.
Print Assumptions C41_round_trip.
(** What is in the archive then: what was there before, and the arrays of scipy's format, under their names, with these dtypes, shapes
    and values. *)
Theorem C41_layout : forall c c' t d m z z', wf_cfg c -> wf_cfg c' -> matrix_ok (N.min (c_usize_max c) (c_usize_max c')) m -> data_ok c c' t d (data_of m) ->
  sparse_write_npz c t m z = (Ok tt, z') -> exists new, nz_entries z' = nz_entries z ++ new /\ Forall2 (holds c') (layout c t d m) new.
Proof. exact written. Qed.
Print Assumptions C41_layout.
Theorem C41_succeeds : forall c c' t d m z, wf_cfg c -> wf_cfg c' -> matrix_ok (N.min (c_usize_max c) (c_usize_max c')) m -> data_ok c c' t d (data_of m) ->
  nz_fuel z = None -> exists z', sparse_write_npz c t m z = (Ok tt, z').
Proof. exact write_succeeds. Qed.
Print Assumptions C41_succeeds.
(** The documented panic of BSR. *)
Theorem C41_bsr_rejected : forall c t d m z, wf_cfg c -> compressed_ok (c_usize_max c) (bsr_shape m) (bsr_indices m) (bsr_indptr m) -> default_dtype c t = Some (Ok d) ->
  nz_fuel z = None -> lenN (bsr_indices m) * fst (bsr_blocksize m) * snd (bsr_blocksize m) <= c_usize_max c ->
  lenN (bsr_data m) <> lenN (bsr_indices m) * fst (bsr_blocksize m) * snd (bsr_blocksize m) -> 0 < snd (bsr_blocksize m) -> exists z', bsr_write_npz c t m z = (Panic, z').
Proof. exact bsr_rejected. Qed.
Print Assumptions C41_bsr_rejected.

(** Two indices at the top of the [u64] range and one that needs 64 bits; 32-bit ones in the columns. *)
Definition S_coo : coo := {| coo_shape := (18446744073709551615, 3); coo_data := [XFloat 1; XFloat 2; XFloat 3];
  coo_row := [18446744073709551615; 9223372036854775808; 2147483648]; coo_col := [2147483647; 18446744071562067968; 0] |}.
Definition S_csr : csr := {| csr_shape := (2, 3); csr_data := [XFloat 1; XFloat 2; XFloat 3]; csr_indices := [0; 2; 1]; csr_indptr := [0; 2; 3] |}.
Definition S_csc : csc := {| csc_shape := (3, 2); csc_data := [XFloat 1; XFloat 2; XFloat 3]; csc_indices := [0; 2; 1]; csc_indptr := [0; 2; 4294967295] |}.
Definition S_dia : dia := {| dia_shape := (4, 4); dia_data := [XFloat 1; XFloat 2; XFloat 3; XFloat 4; XFloat 5; XFloat 6]; dia_offsets := [-1; 0; 1]%Z |}.
Definition S_bsr : bsr := {| bsr_shape := (4, 6); bsr_blocksize := (1, 2); bsr_data := [XFloat 1; XFloat 2; XFloat 3; XFloat 4]; bsr_indices := [0; 2]; bsr_indptr := [0; 2; 2] |}.
Definition S_all : list sparse := [Coo S_coo; Csr S_csr; Csc S_csc; Dia S_dia; Bsr S_bsr].
Example C41_case : Forall (fun m => exists z', sparse_write_npz le64 (RFloat F8) m npz_new = (Ok tt, z') /\ sparse_from_npz be64 (RFloat F8) (nz_entries z') = Ok m
  /\ List.length (nz_entries z') = List.length (layout le64 (RFloat F8) (plain Little TFloat 8) m)) S_all.
Proof. repeat constructor; (eexists; split; [ vm_compute; reflexivity | split; vm_compute; reflexivity ]). Qed.
Example C41_case_ok : Forall (fun m => matrix_ok usize32 m /\ data_ok le64 le32 (RFloat F8) (plain Little TFloat 8) (data_of m)) S_all.
Proof.
  assert (No : no_overflow [2; 1; 2]) by (intros [ | [ | [ | [ | k ] ] ] ]; split; try reflexivity; cbn; destruct k; reflexivity).
  assert (D : forall m, In m S_all -> data_ok le64 le32 (RFloat F8) (plain Little TFloat 8) (data_of m)).
  { intros m Hm. unfold data_ok. split; [ reflexivity | ]. split; [ cbn; repeat split; vm_compute; discriminate | ]. split; [ exact I | ]. split; [ vm_compute; discriminate | ].
    split; [ cbn; split; [ auto | discriminate ] | ]. split; [ cbn; repeat split; vm_compute; discriminate | ].
    assert (HF : Forall (fun v => exists n, v = XFloat n /\ n < 7) (data_of m)) by (repeat (destruct Hm as [ <- | Hm ]; [ cbn; repeat constructor; eexists; split; reflexivity | ]); destruct Hm).
    repeat split; eapply Forall_impl; try exact HF; intros v (n & -> & Hn); cbn; auto. change (2 ^ (8 * 8)) with 18446744073709551616. lia. }
  apply Forall_forall. intros m Hm. split; [ | now apply D ].
  repeat (destruct Hm as [ <- | Hm ]; [ | ]); [ | | | | | destruct Hm ]; unfold matrix_ok, compressed_ok, shape_ok, u64_ok, i64_ok, usize32;
    cbn [data_of fst snd S_coo S_csr S_csc S_dia S_bsr coo_shape coo_data coo_row coo_col csr_shape csr_data csr_indices csr_indptr csc_shape csc_data csc_indices csc_indptr
         dia_shape dia_data dia_offsets bsr_shape bsr_blocksize bsr_data bsr_indices bsr_indptr];
    change (2 ^ 64) with 18446744073709551616; change (2 ^ 32 - 1) with 4294967295; change (2 ^ 63)%Z with 9223372036854775808%Z; unfold lenN; cbn [List.length N.of_nat].
  4: assert (Hx : exists length, 0 < 3 /\ 6 = length * 3) by (exists 2; split; reflexivity).
  all: repeat match goal with |- _ /\ _ => split | |- Forall _ [] => constructor | |- Forall _ (_ :: _) => constructor end; try lia; try exact Hx; try exact No.
Qed.
(** Without the condition on overflow it is false: a BSR matrix without blocks, of a large blocksize, is written but reading it panics. *)
Theorem C41_bsr_refuted : exists m z', m = Bsr {| bsr_shape := (0, 0); bsr_blocksize := (2 ^ 40, 2 ^ 40); bsr_data := []; bsr_indices := []; bsr_indptr := [0] |}
  /\ sparse_write_npz le64 (RFloat F8) m npz_new = (Ok tt, z') /\ sparse_from_npz le64 (RFloat F8) (nz_entries z') = Panic.
Proof. eexists _, _. split; [ reflexivity | ]. split; [ vm_compute; reflexivity | vm_compute; reflexivity ]. Qed.
Print Assumptions C41_bsr_refuted.

(** * C42: index width *)
(** For any sequence of [i64]: 32-bit integers if all fit, else 64-bit ones; the same values are read back. *)
Theorem C42_width : forall c c' name l z z', wf_cfg c -> wf_cfg c' -> Forall i64_ok l -> lenN l < 2 ^ 64 -> write_indices c name l z = (Ok tt, z') ->
  exists bs, nz_entries z' = nz_entries z ++ [(file_name_from_array_name name, bs)]
  /\ (Forall (fun x => - 2 ^ 31 <= x < 2 ^ 31)%Z l -> reads_as c' (RInt true W4) bs 0 (native_int c 4) OrderC [lenN l] (map XInt l))
  /\ (~ Forall (fun x => - 2 ^ 31 <= x < 2 ^ 31)%Z l -> reads_as c' (RInt true W8) bs 0 (native_int c 8) OrderC [lenN l] (map XInt l))
  /\ extract_signed_indices c' (nz_entries z') name = Ok l /\ extract_indices c' (nz_entries z') name = Ok (map to_u64 l).
Proof. exact indices_written. Qed.
Print Assumptions C42_width.
(** For any sequence of [u64] (cast to [i64] to write, and back): identical, also as [usize] where it is one. *)
Theorem C42_unsigned : forall c c' name l z z', wf_cfg c -> wf_cfg c' -> Forall u64_ok l -> lenN l < 2 ^ 64 -> write_indices c name (map as_i64 l) z = (Ok tt, z') ->
  extract_indices c' (nz_entries z') name = Ok l /\ (Forall (fun n => n <= c_usize_max c') l -> extract_usize_indices c' (nz_entries z') name = Ok l).
Proof. exact u64_indices_written. Qed.
Print Assumptions C42_unsigned.
Theorem C42_succeeds : forall c name l z, wf_cfg c -> Forall i64_ok l -> lenN l < 2 ^ 64 -> nz_fuel z = None -> exists z', write_indices c name l z = (Ok tt, z').
Proof. exact indices_succeed. Qed.
Print Assumptions C42_succeeds.
Example C42_case :
  (exists z', write_indices le64 (lit "x") [-2147483648; 2147483647]%Z npz_new = (Ok tt, z') /\ lenN (snd (hd ([], []) (nz_entries z'))) = 128 + 8)
  /\ (exists z', write_indices le64 (lit "x") [-2147483649; 2147483647]%Z npz_new = (Ok tt, z') /\ lenN (snd (hd ([], []) (nz_entries z'))) = 128 + 16)
  /\ (exists z', write_indices le64 (lit "x") [0; 2147483648]%Z npz_new = (Ok tt, z') /\ lenN (snd (hd ([], []) (nz_entries z'))) = 128 + 16
      /\ extract_signed_indices be64 (nz_entries z') (lit "x") = Ok [0; 2147483648]%Z).
Proof. split; [ | split ]; eexists; (split; [ vm_compute; reflexivity | ]); [ | | split ]; vm_compute; reflexivity. Qed.

(** * C43: DIA *)
(** The shape with which the data is stored is [length, number of offsets]; the documented one, [number of offsets, length], only when
    they are equal. *)
Theorem C43_stored_shape : forall c c' t d m z z', wf_cfg c -> wf_cfg c' -> matrix_ok (N.min (c_usize_max c) (c_usize_max c')) (Dia m) -> data_ok c c' t d (dia_data m) ->
  dia_write_npz c t m z = (Ok tt, z') ->
  found c' (nz_entries z') (lit "data") t d OrderC [lenN (dia_data m) / lenN (dia_offsets m); lenN (dia_offsets m)] (dia_data m).
Proof. exact dia_data_shape. Qed.
Print Assumptions C43_stored_shape.
Theorem C43_documented_only_square : forall c c' t d m z z', wf_cfg c -> wf_cfg c' -> matrix_ok (N.min (c_usize_max c) (c_usize_max c')) (Dia m) -> data_ok c c' t d (dia_data m) ->
  dia_write_npz c t m z = (Ok tt, z') ->
  found c' (nz_entries z') (lit "data") t d OrderC [lenN (dia_offsets m); lenN (dia_data m) / lenN (dia_offsets m)] (dia_data m) <->
  lenN (dia_data m) = lenN (dia_offsets m) * lenN (dia_offsets m).
Proof. exact dia_documented. Qed.
Print Assumptions C43_documented_only_square.
(** Three offsets, length two: documented [3, 2], stored [2, 3]. *)
Theorem C43_layout_refuted : exists z', dia_write_npz le64 (RFloat F8) S_dia npz_new = (Ok tt, z')
  /\ lenN (dia_offsets S_dia) = 3 /\ lenN (dia_data S_dia) = 3 * 2
  /\ found le64 (nz_entries z') (lit "data") (RFloat F8) (plain Little TFloat 8) OrderC [2; 3] (dia_data S_dia).
Proof.
  eexists. split; [ vm_compute; reflexivity | ]. split; [ reflexivity | ]. split; [ reflexivity | ].
  unfold found. eexists. split; [ vm_compute; reflexivity | ]. split; [ reflexivity | ]. split; [ reflexivity | ]. split; [ reflexivity | ]. vm_compute. reflexivity.
Qed.
Print Assumptions C43_layout_refuted.
(** Data that is not a multiple of a nonzero number of offsets is refused with a panic (documented for the former, not for the latter). *)
Theorem C43_rejected : forall c t d m z, wf_cfg c -> shape_ok (dia_shape m) -> Forall i64_ok (dia_offsets m) -> lenN (dia_offsets m) < 2 ^ 64 -> default_dtype c t = Some (Ok d) ->
  nz_fuel z = None -> ~ (exists length, 0 < lenN (dia_offsets m) /\ lenN (dia_data m) = length * lenN (dia_offsets m)) -> exists z', dia_write_npz c t m z = (Panic, z').
Proof. exact dia_rejected. Qed.
Print Assumptions C43_rejected.
Theorem C43_empty_refuted : exists z', dia_write_npz le64 (RFloat F8) {| dia_shape := (3, 3); dia_data := []; dia_offsets := [] |} npz_new = (Panic, z').
Proof. eexists. vm_compute. reflexivity. Qed.
Print Assumptions C43_empty_refuted.
(** The hypotheses are met by three offsets of length two, on machines of 64 and 32 bits, and by two offsets and three items for the refusal. *)
Example C43_case : matrix_ok usize32 (Dia S_dia) /\ data_ok le64 le32 (RFloat F8) (plain Little TFloat 8) (dia_data S_dia)
  /\ (exists z', dia_write_npz le64 (RFloat F8) S_dia npz_new = (Ok tt, z'))
  /\ ~ (exists length, 0 < lenN [0; 1]%Z /\ lenN [XFloat 1; XFloat 2; XFloat 3] = length * lenN [0; 1]%Z).
Proof.
  pose proof C41_case_ok as H. rewrite Forall_forall in H. destruct (H (Dia S_dia)) as (H1 & H2); [ cbn [S_all In]; tauto | ]. split; [ exact H1 | ]. split; [ exact H2 | ].
  split; [ eexists; vm_compute; reflexivity | ]. intros (k & _ & E). change (3 = k * 2) in E. lia.
Qed.
