(** src/sparse.rs: reading sparse matrices from archives some entries of which [zip] cannot open.  The functions are those of M_Sparse.v with the
    answers of [NpzArchive::by_name] as an argument. *)
From Verif Require Import M_Base M_Text M_TypeStr M_PyLit M_IO M_Header M_Read M_Serialize M_NpyReader M_Write M_Npz M_Sparse M_Zip.
Open Scope N_scope.

(** [NpzArchive::by_name] (src/npz_feature.rs:42-50) on some archive *)
Definition lookup := text -> res (option npy_file).

(** src/sparse.rs:396-403 *)
Definition extract_and_check_ndim_by (c : cfg) (look : lookup) (name : text) (expected : N) : res npy_file :=
  let* f := look name in
  match f with
  | None => Err (EData (lit "missing array '" ++ name ++ lit "' from sparse array"))
  | Some f =>
    if lenN (h_shape (nf_header f)) =? expected then Ok f
    else Err (EData (lit "invalid ndim for " ++ name ++ lit ": " ++ dec (lenN (h_shape (nf_header f))) ++ lit " (expected " ++ dec expected ++ lit ")"))
  end.

(** src/sparse.rs:336-339 *)
Definition extract_scalar_by (c : cfg) (look : lookup) (t : rty) (name : text) : res val :=
  let* f := extract_and_check_ndim_by c look name 0 in
  let* vs := fst (npy_into_vec c t f) in
  match vs with v :: _ => Ok v | [] => Panic end.

(** src/sparse.rs:370-379 *)
Definition extract_signed_indices_by (c : cfg) (look : lookup) (name : text) : res (list Z) :=
  let* f := extract_and_check_ndim_by c look name 1 in
  match npy_try_data c i32_type f with
  | inl r => let* vs := collect_all c r in Ok (map int_of vs)
  | inr f =>
    match npy_try_data c i64_type f with
    | inl r => let* vs := collect_all c r in Ok (map int_of vs)
    | inr f => Err (invalid_index_dtype name f)
    end
  end.
(** src/sparse.rs:356-365: the same with every item cast to [u64] *)
Definition extract_indices_by (c : cfg) (look : lookup) (name : text) : res (list N) :=
  let* f := extract_and_check_ndim_by c look name 1 in
  match npy_try_data c i32_type f with
  | inl r => let* vs := collect_all c r in Ok (map (fun v => to_u64 (int_of v)) vs)
  | inr f =>
    match npy_try_data c i64_type f with
    | inl r => let* vs := collect_all c r in Ok (map (fun v => to_u64 (int_of v)) vs)
    | inr f => Err (invalid_index_dtype name f)
    end
  end.
(** src/sparse.rs:349-351 *)
Definition extract_usize_indices_by (c : cfg) (look : lookup) (name : text) : res (list N) :=
  let* l := extract_indices_by c look name in Ok (map (to_usize c) l).
(** src/sparse.rs:341-347 *)
Definition extract_shape_by (c : cfg) (look : lookup) (name : text) : res (N * N) :=
  let* l := extract_indices_by c look name in
  match l with
  | [x; y] => Ok (x, y)
  | _ => Err (EData (lit "invalid length for '" ++ name ++ lit "' (got " ++ dec (lenN l) ++ lit ", expected 2)"))
  end.
(** src/sparse.rs:381-384 *)
Definition extract_1d_by (c : cfg) (look : lookup) (t : rty) (name : text) : res (list val) :=
  let* f := extract_and_check_ndim_by c look name 1 in fst (npy_into_vec c t f).
(** src/sparse.rs:386-394 *)
Definition extract_nd_by (c : cfg) (look : lookup) (t : rty) (name : text) (ndim : N) : res (list val * list N) :=
  let* f := extract_and_check_ndim_by c look name ndim in
  match h_order (nf_header f) with
  | OrderFortran => Err (EData (lit "fortran order is not currently supported for array '" ++ name ++ lit "' in sparse NPZ file"))
  | OrderC =>
    let* vs := fst (npy_into_vec c t f) in
    Ok (vs, map (to_usize c) (h_shape (nf_header f)))
  end.

(** [extract_scalar::<Vec<u8>, _>(npz, "format")] *)
Definition the_format_by (c : cfg) (look : lookup) : res bytes :=
  let* v := extract_scalar_by c look RVecU8 (lit "format") in
  match v with XBytes b => Ok b | _ => Panic end.
(** src/sparse.rs:328-334 *)
Definition expect_format_by (c : cfg) (look : lookup) (expected : bytes) : res unit :=
  let* b := the_format_by c look in
  if eqb_list b expected then Ok tt else Err (EData (lit "wrong format: expected '" ++ expected ++ lit "', got " ++ show_format b)).

(** src/sparse.rs:256-266 *)
Definition coo_by (c : cfg) (t : rty) (look : lookup) : res coo :=
  let* _u := expect_format_by c look (lit "coo") in
  let* shape := extract_shape_by c look (lit "shape") in
  let* row := extract_indices_by c look (lit "row") in
  let* col := extract_indices_by c look (lit "col") in
  let* data := extract_1d_by c look t (lit "data") in
  Ok {| coo_shape := shape; coo_data := data; coo_row := row; coo_col := col |}.
(** src/sparse.rs:268-278 *)
Definition csr_by (c : cfg) (t : rty) (look : lookup) : res csr :=
  let* _u := expect_format_by c look (lit "csr") in
  let* shape := extract_shape_by c look (lit "shape") in
  let* indices := extract_indices_by c look (lit "indices") in
  let* indptr := extract_usize_indices_by c look (lit "indptr") in
  let* data := extract_1d_by c look t (lit "data") in
  Ok {| csr_shape := shape; csr_data := data; csr_indices := indices; csr_indptr := indptr |}.
(** src/sparse.rs:280-290 *)
Definition csc_by (c : cfg) (t : rty) (look : lookup) : res csc :=
  let* _u := expect_format_by c look (lit "csc") in
  let* shape := extract_shape_by c look (lit "shape") in
  let* indices := extract_indices_by c look (lit "indices") in
  let* indptr := extract_usize_indices_by c look (lit "indptr") in
  let* data := extract_1d_by c look t (lit "data") in
  Ok {| csc_shape := shape; csc_data := data; csc_indices := indices; csc_indptr := indptr |}.
(** src/sparse.rs:292-301 *)
Definition dia_by (c : cfg) (t : rty) (look : lookup) : res dia :=
  let* _u := expect_format_by c look (lit "dia") in
  let* shape := extract_shape_by c look (lit "shape") in
  let* offsets := extract_signed_indices_by c look (lit "offsets") in
  let* ds := extract_nd_by c look t (lit "data") 2 in
  Ok {| dia_shape := shape; dia_data := fst ds; dia_offsets := offsets |}.
(** src/sparse.rs:303-314; [data_shape] has length 3, so the indexing does not panic *)
Definition bsr_by (c : cfg) (t : rty) (look : lookup) : res bsr :=
  let* _u := expect_format_by c look (lit "bsr") in
  let* shape := extract_shape_by c look (lit "shape") in
  let* indices := extract_indices_by c look (lit "indices") in
  let* indptr := extract_usize_indices_by c look (lit "indptr") in
  let* ds := extract_nd_by c look t (lit "data") 3 in
  match snd ds with
  | [_; b0; b1] => Ok {| bsr_shape := shape; bsr_blocksize := (b0, b1); bsr_data := fst ds; bsr_indices := indices; bsr_indptr := indptr |}
  | _ => Panic
  end.
(** src/sparse.rs:240-254 *)
Definition sparse_by (c : cfg) (t : rty) (look : lookup) : res sparse :=
  let* format := the_format_by c look in
  if eqb_list format (lit "coo") then let* m := coo_by c t look in Ok (Coo m)
  else if eqb_list format (lit "csc") then let* m := csc_by c t look in Ok (Csc m)
  else if eqb_list format (lit "csr") then let* m := csr_by c t look in Ok (Csr m)
  else if eqb_list format (lit "dia") then let* m := dia_by c t look in Ok (Dia m)
  else if eqb_list format (lit "bsr") then let* m := bsr_by c t look in Ok (Bsr m)
  else Err (EData (lit "bad format: " ++ show_format format)).

(** The same on archives: src/sparse.rs:240-314 *)
Definition zcoo_from_npz (c : cfg) (t : rty) (a : zarchive) : res coo := coo_by c t (zby_name c a).
Definition zcsr_from_npz (c : cfg) (t : rty) (a : zarchive) : res csr := csr_by c t (zby_name c a).
Definition zcsc_from_npz (c : cfg) (t : rty) (a : zarchive) : res csc := csc_by c t (zby_name c a).
Definition zdia_from_npz (c : cfg) (t : rty) (a : zarchive) : res dia := dia_by c t (zby_name c a).
Definition zbsr_from_npz (c : cfg) (t : rty) (a : zarchive) : res bsr := bsr_by c t (zby_name c a).
Definition zsparse_from_npz (c : cfg) (t : rty) (a : zarchive) : res sparse := sparse_by c t (zby_name c a).
