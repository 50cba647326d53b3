(** Sparse matrices in an archive whose entries may be such as [zip] cannot open. *)
From Verif Require Import M_Base M_Text M_TypeStr M_IO M_Serialize M_Npz M_Sparse M_Zip M_ZipSparse S_Sparse S_Archive S_Zip.
Open Scope N_scope.

(** The typed readers ([Coo::from_npz] and so on), as one function of the format asked for. *)
Definition zread_as (f : format) (c : cfg) (t : rty) (a : zarchive) : res sparse :=
  match f with
  | FCoo => let* m := zcoo_from_npz c t a in Ok (Coo m)
  | FCsr => let* m := zcsr_from_npz c t a in Ok (Csr m)
  | FCsc => let* m := zcsc_from_npz c t a in Ok (Csc m)
  | FDia => let* m := zdia_from_npz c t a in Ok (Dia m)
  | FBsr => let* m := zbsr_from_npz c t a in Ok (Bsr m)
  end.
(** The arrays of a format, in the order in which they are looked at. *)
Definition members (f : format) : list text :=
  [lit "format"; lit "shape"] ++
  match f with
  | FCoo => [lit "row"; lit "col"; lit "data"]
  | FCsr | FCsc | FBsr => [lit "indices"; lit "indptr"; lit "data"]
  | FDia => [lit "offsets"; lit "data"]
  end.
(** Two archives have the same entry for an array. *)
Definition same_entry (a b : zarchive) (name : text) : Prop := forall x, last_entry a (name ++ lit ".npy") x <-> last_entry b (name ++ lit ".npy") x.
(** The array's entry cannot be opened. *)
Definition damaged (a : zarchive) (name : text) (z : zip_error) : Prop := last_entry a (name ++ lit ".npy") (inr z).
