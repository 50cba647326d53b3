(** Arrays in an archive whose entries may be such as [zip] cannot open. *)
From Verif Require Import M_Base M_Text M_TypeStr M_IO M_Npz M_Zip S_TypeStr S_Elem S_Archive.
Open Scope N_scope.

(** The last entry of the file name [path] gives [x]. *)
Definition last_entry (a : zarchive) (path : text) (x : bytes + zip_error) : Prop :=
  exists before after, a = before ++ (path, x) :: after /\ ~ In path (map fst after).
(** What is said of an entry that cannot be opened: errors of the stream as they are, others by their message. *)
Definition complaint (z : zip_error) : err := match z with ZipIo e => e | ZipInvalid s | ZipUnsupported s => EData s end.
(** The path of an entry that counts as an array called [name]: the name, the suffix, and then nothing or a NUL and anything. *)
Definition counts_as (path name : text) : Prop :=
  exists rest, path = name ++ lit ".npy" ++ rest /\ ~ In 0 name /\ (rest = [] \/ exists r, rest = 0 :: r).
(** The array's entry, if it can be opened, is bytes and has no byte strings too long for the memory of machine [c]. *)
Definition readable_by (c : cfg) (a : zarchive) (name : text) : Prop :=
  forall bs, last_entry a (name ++ lit ".npy") (inl bs) -> bytes_ok bs /\ forall d shape o data, file_header c bs d shape o data -> strings_fit (c_usize_max c) d.
