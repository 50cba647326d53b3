(** src/npz_feature.rs:42-50 with all the answers [zip] (0.6) can give: an entry that is there can still be one that [zip] cannot open. *)
From Verif Require Import M_Base M_Text M_TypeStr M_PyLit M_IO M_Header M_Read M_Serialize M_NpyReader M_Write M_Npz.
Open Scope N_scope.

(** [zip::result::ZipError], except [FileNotFound] *)
Inductive zip_error := ZipIo (e : err) | ZipInvalid (msg : text) | ZipUnsupported (msg : text).
(** The entries in order: a file name, and what opening it gives. *)
Definition zarchive := list (text * (bytes + zip_error)).
(** [ZipArchive::by_name], as in M_Npz.zip_find: the last entry of the name; [None] is [FileNotFound]. *)
Fixpoint zopen (file : text) (a : zarchive) : option (bytes + zip_error) :=
  match a with
  | [] => None
  | (f, x) :: a' =>
    match zopen file a' with
    | Some y => Some y
    | None => if eqb_list f file then Some x else None
    end
  end.
(** src/npz_feature.rs:42-50, 58-60.  Reading the entry's bytes does not fail here; for sources that fail see M_Flaky. *)
Definition zby_name (c : cfg) (a : zarchive) (name : text) : res (option npy_file) :=
  match zopen (file_name_from_array_name name) a with
  | Some (inl bs) => let* f := fst (npy_new c {| cur_data := bs; cur_pos := 0 |}) in Ok (Some f)
  | None => Ok None
  | Some (inr (ZipIo e)) => Err e
  | Some (inr (ZipInvalid s)) => Err (EData s)
  | Some (inr (ZipUnsupported s)) => Err (EData s)
  end.
(** src/npz_feature.rs:35-37 *)
Definition zarray_names (a : zarchive) : list text := array_names (map (fun e => (fst e, [])) a).
