(** What writing a sparse matrix does when the output takes everything, for every matrix, sound or not. *)
From Verif Require Import M_Base M_Text M_TypeStr M_IO M_Header M_Read M_Serialize M_Write M_Npz M_Sparse S_TypeStr S_DType S_Shape S_Elem S_Strings S_Write S_File S_Npz S_Sparse.
Open Scope N_scope.

(** Every number is of its Rust type; nothing else. *)
Definition numbers_ok (max : N) (m : sparse) : Prop :=
  lenN (data_of m) <= max /\
  match m with
  | Coo m => shape_ok (coo_shape m) /\ Forall u64_ok (coo_row m) /\ Forall u64_ok (coo_col m) /\ lenN (coo_row m) <= max /\ lenN (coo_col m) <= max
  | Csr m => compressed_ok max (csr_shape m) (csr_indices m) (csr_indptr m)
  | Csc m => compressed_ok max (csc_shape m) (csc_indices m) (csc_indptr m)
  | Dia m => shape_ok (dia_shape m) /\ Forall i64_ok (dia_offsets m) /\ lenN (dia_offsets m) <= max
  | Bsr m => compressed_ok max (bsr_shape m) (bsr_indices m) (bsr_indptr m) /\ fst (bsr_blocksize m) <= max /\ snd (bsr_blocksize m) <= max
  end.
(** Values of a type whose default dtype is [d], which has a header of reasonable length. *)
Definition data_writable (c : cfg) (t : rty) (d : dtype) (vs : list val) : Prop :=
  default_dtype c t = Some (Ok d) /\ has_default (c_usize_max c) t /\ top_level d /\ lenN (utf8 (descr d)) <= 64000 /\ Forall (has_type t) vs /\ Forall units_ok vs.

(** The number of items a block-sparse matrix of these blocks has. *)
Definition block_items (m : bsr) : N := lenN (bsr_indices m) * fst (bsr_blocksize m) * snd (bsr_blocksize m).
(** What is demanded of a matrix: DIA data are a multiple of the offsets, of which there are some; BSR data are as many as the blocks have items,
    computed as [usize] from left to right. *)
Definition demanded (c : cfg) (m : sparse) : Prop :=
  match m with
  | Coo _ | Csr _ | Csc _ => True
  | Dia m => lenN (dia_offsets m) <> 0 /\ (lenN (dia_offsets m) | lenN (dia_data m))
  | Bsr m =>
    if c_ovf_panics c
    then lenN (bsr_indices m) * fst (bsr_blocksize m) <= c_usize_max c /\ block_items m <= c_usize_max c /\ lenN (bsr_data m) = block_items m
    else lenN (bsr_data m) = block_items m mod (c_usize_max c + 1)
  end.
(** The shape with which the data are stored. *)
Definition data_shape (m : sparse) : list N :=
  match m with
  | Dia m => [lenN (dia_data m) / lenN (dia_offsets m); lenN (dia_offsets m)]
  | Bsr m => [lenN (bsr_indices m); fst (bsr_blocksize m); snd (bsr_blocksize m)]
  | _ => [lenN (data_of m)]
  end.
(** What becomes of the data: its array, with every item, and success; or a panic and nothing. *)
Inductive data_outcome (c : cfg) (t : rty) (d : dtype) (m : sparse) : res unit -> archive -> Prop :=
| data_stored payload file : demanded c m -> encodings t d (data_of m) payload ->
    finished_file d OrderC (NDimensional (data_shape m)) (data_shape m) payload file -> data_outcome c t d m (Ok tt) [(lit "data.npy", file)]
| data_refused : ~ demanded c m -> data_outcome c t d m Panic [].
(** What the documentation asks, in exact numbers. *)
Definition documented (m : sparse) : Prop :=
  match m with
  | Coo _ | Csr _ | Csc _ => True
  | Dia m => (lenN (dia_offsets m) | lenN (dia_data m))
  | Bsr m => lenN (bsr_data m) = block_items m
  end.
