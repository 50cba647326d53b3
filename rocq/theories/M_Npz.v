(** src/npz.rs and src/npz_feature.rs: archives of arrays.  The [zip] crate (0.6) is not modelled: an archive is the list of its
    entries, in the order in which they were started, each a file name and the bytes written to it; reading an entry gives back those
    bytes; looking up a name finds the last entry started under it. *)
From Verif Require Import M_Base M_Text M_TypeStr M_PyLit M_IO M_Header M_Read M_Serialize M_NpyReader M_Write.
Open Scope N_scope.

Definition archive := list (text * bytes).

(** src/npz.rs:34-36: [path.split_at(path.find('\0'))] *)
Fixpoint cut_at_nul (s : text) : text :=
  match s with
  | [] => []
  | c :: s' => if c =? 0 then [] else c :: cut_at_nul s'
  end.
(** src/npz.rs:38: [str::ends_with] *)
Definition ends_with (suffix s : text) : bool :=
  (lenN suffix <=? lenN s) && eqb_list (dropN (lenN s - lenN suffix) s) suffix.
(** src/npz.rs:31-42 ([path] is UTF-8, but the suffix is ASCII, so counting characters and counting bytes is the same) *)
Definition array_name_from_file_name (path : text) : option text :=
  let path := cut_at_nul path in
  if ends_with (lit ".npy") path then Some (takeN (lenN path - 4) path) else None.
(** src/npz.rs:50-52 *)
Definition file_name_from_array_name (name : text) : text := name ++ lit ".npy".
(** src/npz.rs:58-60, with [i32]'s decimal text *)
Definition dec_z (z : Z) : text := match z with Zneg p => lit "-" ++ dec (Npos p) | _ => dec (Z.to_N z) end.
Definition file_name_from_index (i : Z) : text := lit "arr_" ++ dec_z i ++ lit ".npy".

(** The entry a name leads to ([ZipArchive::by_name]: a map from names to entries, filled in order). *)
Fixpoint zip_find (file : text) (a : archive) : option bytes :=
  match a with
  | [] => None
  | (f, bs) :: a' =>
    match zip_find file a' with
    | Some b => Some b
    | None => if eqb_list f file then Some bs else None
    end
  end.
(** [ZipArchive::file_names]: the keys of that map.  (Its order is unspecified; here it is the order of the last entries.) *)
Fixpoint zip_names (a : archive) : list text :=
  match a with
  | [] => []
  | (f, _) :: a' => if existsb (eqb_list f) (zip_names a') then zip_names a' else f :: zip_names a'
  end.

(** src/npz_feature.rs:35-37 *)
Fixpoint filter_map {A B} (f : A -> option B) (l : list A) : list B :=
  match l with
  | [] => []
  | x :: l' => match f x with Some y => y :: filter_map f l' | None => filter_map f l' end
  end.
Definition array_names (a : archive) : list text := filter_map array_name_from_file_name (zip_names a).

(** src/npz_feature.rs:42-50 *)
Definition by_name (c : cfg) (a : archive) (name : text) : res (option npy_file) :=
  match zip_find (file_name_from_array_name name) a with
  | None => Ok None                                            (* ZipError::FileNotFound *)
  | Some bs =>
    let* f := fst (npy_new c {| cur_data := bs; cur_pos := 0 |}) in Ok (Some f)
  end.

(** Writing.  The budget is as for [sink]; starting an entry is one effect. *)
Record npz_writer := { nz_entries : archive; nz_fuel : option N }.
Definition npz_new : npz_writer := {| nz_entries := []; nz_fuel := None |}.
(** src/npz_feature.rs:86-89: start a file, then let [k] write to it.  What [k] gets is an [io::Write] without seeking; its position is
    counted from the start of the entry. *)
Definition npz_array {A} (name : text) (k : sink -> res A * sink) (z : npz_writer) : res A * npz_writer :=
  match sink_tick {| sk_data := []; sk_pos := 0; sk_fuel := nz_fuel z |} with
  | (Ok _, s) =>
    let '(r, s') := k s in
    (r, {| nz_entries := nz_entries z ++ [(file_name_from_array_name name, sk_data s')]; nz_fuel := sk_fuel s' |})
  | (Err e, _) => (Err e, z)
  | (Panic, _) => (Panic, z)
  end.
(** Sequencing of writes to an archive. *)
Definition zbind {A B} (m : npz_writer -> res A * npz_writer) (k : A -> npz_writer -> res B * npz_writer) (z : npz_writer) : res B * npz_writer :=
  match m z with
  | (Ok a, z') => k a z'
  | (Err e, z') => (Err e, z')
  | (Panic, z') => (Panic, z')
  end.
Notation "'let%' x ':=' e 'in' k" := (zbind e (fun x => k))
  (at level 200, x name, e at level 100, k at level 200, right associativity).
Definition zret {A} (r : res A) (z : npz_writer) : res A * npz_writer := (r, z).

(** [begin_nd()?.extend(vs)] as a temporary: the writer is dropped at the end of the statement. *)
Definition extend_and_drop (c : cfg) (t : rty) (d : dtype) (o : order) (shape : list N) (vs : list val) : sink -> res unit * sink :=
  let@ w := begin_nd c t d o shape in
  fun s =>
  let '(r, w', s') := extend c vs w s in
  match drop_writer w' s' with
  | (Panic, s'') => (Panic, s'')
  | (_, s'') => (r, s'')
  end.
