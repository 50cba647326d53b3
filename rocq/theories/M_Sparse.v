(** src/sparse.rs: sparse matrices in archives. *)
From Verif Require Import M_Base M_Text M_TypeStr M_PyLit M_IO M_Header M_Read M_Serialize M_NpyReader M_Write M_Npz.
Open Scope N_scope.

(** src/sparse.rs:52-234: the owned versions ([Vec] for every sequence).  Index values are [u64], [indptr] and [blocksize] are
    [usize], offsets are [i64]. *)
Record coo := { coo_shape : N * N; coo_data : list val; coo_row : list N; coo_col : list N }.
Record csr := { csr_shape : N * N; csr_data : list val; csr_indices : list N; csr_indptr : list N }.
Record csc := { csc_shape : N * N; csc_data : list val; csc_indices : list N; csc_indptr : list N }.
Record dia := { dia_shape : N * N; dia_data : list val; dia_offsets : list Z }.
Record bsr := { bsr_shape : N * N; bsr_blocksize : N * N; bsr_data : list val; bsr_indices : list N; bsr_indptr : list N }.
Inductive sparse := Coo (m : coo) | Csr (m : csr) | Csc (m : csc) | Dia (m : dia) | Bsr (m : bsr).

(** * Reading *)
(** [x as u64] of a signed integer, [x as usize] of a [u64]. *)
Definition to_u64 (z : Z) : N := Z.to_N (z mod 2 ^ 64)%Z.
Definition to_usize (c : cfg) (n : N) : N := n mod (c_usize_max c + 1).

(** src/sparse.rs:318-326: bytes 0x20 to 0x7f as they are, the others as escapes *)
Definition show_format (format : bytes) : text :=
  lit "'" ++ flat_map (fun b => if (0x20 <=? b) && (b <=? 0x7f) then [b] else lit "\x" ++ hex_byte b) format ++ lit "'".

(** src/sparse.rs:396-403 *)
Definition extract_and_check_ndim (c : cfg) (a : archive) (name : text) (expected : N) : res npy_file :=
  let* f := by_name c a name in
  match f with
  | None => Err (EData (lit "missing array '" ++ name ++ lit "' from sparse array"))
  | Some f =>
    if lenN (h_shape (nf_header f)) =? expected then Ok f
    else Err (EData (lit "invalid ndim for " ++ name ++ lit ": " ++ dec (lenN (h_shape (nf_header f))) ++ lit " (expected " ++ dec expected ++ lit ")"))
  end.

(** src/sparse.rs:336-339 *)
Definition extract_scalar (c : cfg) (a : archive) (t : rty) (name : text) : res val :=
  let* f := extract_and_check_ndim c a name 0 in
  let* vs := fst (npy_into_vec c t f) in
  match vs with v :: _ => Ok v | [] => Panic end.

(** The integers in a sequence of values. *)
Definition int_of (v : val) : Z := match v with XInt z => z | _ => 0%Z end.
Definition i32_type : rty := RInt true W4.
Definition i64_type : rty := RInt true W8.

(** [data.map(...).collect()] on a reader: every item must be there *)
Definition collect_all (c : cfg) (r : npy_reader) : res (list val) := fst (nr_collect c (S (N.to_nat (nr_total_len r))) r).

(** src/sparse.rs:362,376 *)
Definition invalid_index_dtype (name : text) (f : npy_file) : err :=
  EData (lit "invalid dtype for '" ++ name ++ lit "' in sparse matrix: " ++ descr (h_dtype (nf_header f))).
(** src/sparse.rs:370-379 *)
Definition extract_signed_indices (c : cfg) (a : archive) (name : text) : res (list Z) :=
  let* f := extract_and_check_ndim c a name 1 in
  match npy_try_data c i32_type f with
  | inl r => let* vs := collect_all c r in Ok (map int_of vs)
  | inr f =>
    match npy_try_data c i64_type f with
    | inl r => let* vs := collect_all c r in Ok (map int_of vs)
    | inr f => Err (invalid_index_dtype name f)
    end
  end.
(** src/sparse.rs:356-365: the same with every item cast to [u64] *)
Definition extract_indices (c : cfg) (a : archive) (name : text) : res (list N) :=
  let* f := extract_and_check_ndim c a name 1 in
  match npy_try_data c i32_type f with
  | inl r => let* vs := collect_all c r in Ok (map (fun v => to_u64 (int_of v)) vs)
  | inr f =>
    match npy_try_data c i64_type f with
    | inl r => let* vs := collect_all c r in Ok (map (fun v => to_u64 (int_of v)) vs)
    | inr f => Err (invalid_index_dtype name f)
    end
  end.
(** src/sparse.rs:349-351 *)
Definition extract_usize_indices (c : cfg) (a : archive) (name : text) : res (list N) :=
  let* l := extract_indices c a name in Ok (map (to_usize c) l).
(** src/sparse.rs:341-347 *)
Definition extract_shape (c : cfg) (a : archive) (name : text) : res (N * N) :=
  let* l := extract_indices c a name in
  match l with
  | [x; y] => Ok (x, y)
  | _ => Err (EData (lit "invalid length for '" ++ name ++ lit "' (got " ++ dec (lenN l) ++ lit ", expected 2)"))
  end.
(** src/sparse.rs:381-384 *)
Definition extract_1d (c : cfg) (a : archive) (t : rty) (name : text) : res (list val) :=
  let* f := extract_and_check_ndim c a name 1 in fst (npy_into_vec c t f).
(** src/sparse.rs:386-394 *)
Definition extract_nd (c : cfg) (a : archive) (t : rty) (name : text) (ndim : N) : res (list val * list N) :=
  let* f := extract_and_check_ndim c a name ndim in
  match h_order (nf_header f) with
  | OrderFortran => Err (EData (lit "fortran order is not currently supported for array '" ++ name ++ lit "' in sparse NPZ file"))
  | OrderC =>
    let* vs := fst (npy_into_vec c t f) in
    Ok (vs, map (to_usize c) (h_shape (nf_header f)))
  end.

(** [extract_scalar::<Vec<u8>, _>(npz, "format")] *)
Definition the_format (c : cfg) (a : archive) : res bytes :=
  let* v := extract_scalar c a RVecU8 (lit "format") in
  match v with XBytes b => Ok b | _ => Panic end.
(** src/sparse.rs:328-334 *)
Definition expect_format (c : cfg) (a : archive) (expected : bytes) : res unit :=
  let* b := the_format c a in
  if eqb_list b expected then Ok tt else Err (EData (lit "wrong format: expected '" ++ expected ++ lit "', got " ++ show_format b)).

(** src/sparse.rs:256-266 *)
Definition coo_from_npz (c : cfg) (t : rty) (a : archive) : res coo :=
  let* _u := expect_format c a (lit "coo") in
  let* shape := extract_shape c a (lit "shape") in
  let* row := extract_indices c a (lit "row") in
  let* col := extract_indices c a (lit "col") in
  let* data := extract_1d c a t (lit "data") in
  Ok {| coo_shape := shape; coo_data := data; coo_row := row; coo_col := col |}.
(** src/sparse.rs:268-278 *)
Definition csr_from_npz (c : cfg) (t : rty) (a : archive) : res csr :=
  let* _u := expect_format c a (lit "csr") in
  let* shape := extract_shape c a (lit "shape") in
  let* indices := extract_indices c a (lit "indices") in
  let* indptr := extract_usize_indices c a (lit "indptr") in
  let* data := extract_1d c a t (lit "data") in
  Ok {| csr_shape := shape; csr_data := data; csr_indices := indices; csr_indptr := indptr |}.
(** src/sparse.rs:280-290 *)
Definition csc_from_npz (c : cfg) (t : rty) (a : archive) : res csc :=
  let* _u := expect_format c a (lit "csc") in
  let* shape := extract_shape c a (lit "shape") in
  let* indices := extract_indices c a (lit "indices") in
  let* indptr := extract_usize_indices c a (lit "indptr") in
  let* data := extract_1d c a t (lit "data") in
  Ok {| csc_shape := shape; csc_data := data; csc_indices := indices; csc_indptr := indptr |}.
(** src/sparse.rs:292-301 *)
Definition dia_from_npz (c : cfg) (t : rty) (a : archive) : res dia :=
  let* _u := expect_format c a (lit "dia") in
  let* shape := extract_shape c a (lit "shape") in
  let* offsets := extract_signed_indices c a (lit "offsets") in
  let* ds := extract_nd c a t (lit "data") 2 in
  Ok {| dia_shape := shape; dia_data := fst ds; dia_offsets := offsets |}.
(** src/sparse.rs:303-314; [data_shape] has length 3, so the indexing does not panic *)
Definition bsr_from_npz (c : cfg) (t : rty) (a : archive) : res bsr :=
  let* _u := expect_format c a (lit "bsr") in
  let* shape := extract_shape c a (lit "shape") in
  let* indices := extract_indices c a (lit "indices") in
  let* indptr := extract_usize_indices c a (lit "indptr") in
  let* ds := extract_nd c a t (lit "data") 3 in
  match snd ds with
  | [_; b0; b1] => Ok {| bsr_shape := shape; bsr_blocksize := (b0, b1); bsr_data := fst ds; bsr_indices := indices; bsr_indptr := indptr |}
  | _ => Panic
  end.
(** src/sparse.rs:240-254 *)
Definition sparse_from_npz (c : cfg) (t : rty) (a : archive) : res sparse :=
  let* format := the_format c a in
  if eqb_list format (lit "coo") then let* m := coo_from_npz c t a in Ok (Coo m)
  else if eqb_list format (lit "csc") then let* m := csc_from_npz c t a in Ok (Csc m)
  else if eqb_list format (lit "csr") then let* m := csr_from_npz c t a in Ok (Csr m)
  else if eqb_list format (lit "dia") then let* m := dia_from_npz c t a in Ok (Dia m)
  else if eqb_list format (lit "bsr") then let* m := bsr_from_npz c t a in Ok (Bsr m)
  else Err (EData (lit "bad format: " ++ show_format format)).

(** * Writing *)
(** [x as i32]; [x as i64] of a [u64] or [usize] is [as_i64]. *)
Definition as_i32 (z : Z) : Z := ((z + 2 ^ 31) mod 2 ^ 32 - 2 ^ 31)%Z.

(** [.default_dtype()] (src/write.rs:99) for types that have one *)
Definition with_default (c : cfg) (t : rty) (k : dtype -> sink -> res unit * sink) : sink -> res unit * sink :=
  match default_dtype c t with
  | Some (Ok d) => k d
  | _ => sret Panic
  end.

(** src/sparse.rs:559-565: [|S3] is parsed (and unwrapped) each time; the slice [u8] is written as [Vec<u8>] is *)
Definition format_dtype : dtype := DPlain {| ts_endianness := Irrelevant; ts_char := TByteStr; ts_size := 3; ts_units := None |}.
Definition write_format (c : cfg) (format : bytes) : npz_writer -> res unit * npz_writer :=
  npz_array (lit "format") (extend_and_drop c RVecU8 format_dtype OrderC [] [XBytes format]).
(** src/sparse.rs:567-574 *)
Definition write_shape (c : cfg) (shape : N * N) : npz_writer -> res unit * npz_writer :=
  npz_array (lit "shape")
    (with_default c i64_type (fun d => extend_and_drop c i64_type d OrderC [2] [XInt (as_i64 (fst shape)); XInt (as_i64 (snd shape))])).
(** src/sparse.rs:596-605 *)
Definition most_negative_and_positive (l : list Z) : Z * Z :=
  fold_left (fun b x => (Z.min (fst b) x, Z.max (snd b) x)) l (0, 0)%Z.
(** src/sparse.rs:577-594 *)
Definition write_indices (c : cfg) (name : text) (l : list Z) : npz_writer -> res unit * npz_writer :=
  let '(mn, mx) := most_negative_and_positive l in
  if ((- 2 ^ 31 <=? mn) && (mx <=? 2 ^ 31 - 1))%Z then
    npz_array name (with_default c i32_type (fun d => extend_and_drop c i32_type d OrderC [lenN l] (map (fun z => XInt (as_i32 z)) l)))
  else
    npz_array name (with_default c i64_type (fun d => extend_and_drop c i64_type d OrderC [lenN l] (map XInt l))).
(** src/sparse.rs:607-613 *)
Definition write_data (c : cfg) (t : rty) (data : list val) (shape : list N) : npz_writer -> res unit * npz_writer :=
  npz_array (lit "data") (with_default c t (fun d => extend_and_drop c t d OrderC shape data)).

(** src/sparse.rs:444-452 *)
Definition coo_write_npz (c : cfg) (t : rty) (m : coo) : npz_writer -> res unit * npz_writer :=
  let% _u := write_format c (lit "coo") in
  let% _u := write_shape c (coo_shape m) in
  let% _u := write_indices c (lit "row") (map as_i64 (coo_row m)) in
  let% _u := write_indices c (lit "col") (map as_i64 (coo_col m)) in
  write_data c t (coo_data m) [lenN (coo_data m)].
(** src/sparse.rs:468-476 *)
Definition csr_write_npz (c : cfg) (t : rty) (m : csr) : npz_writer -> res unit * npz_writer :=
  let% _u := write_format c (lit "csr") in
  let% _u := write_shape c (csr_shape m) in
  let% _u := write_indices c (lit "indices") (map as_i64 (csr_indices m)) in
  let% _u := write_indices c (lit "indptr") (map as_i64 (csr_indptr m)) in
  write_data c t (csr_data m) [lenN (csr_data m)].
(** src/sparse.rs:492-500 *)
Definition csc_write_npz (c : cfg) (t : rty) (m : csc) : npz_writer -> res unit * npz_writer :=
  let% _u := write_format c (lit "csc") in
  let% _u := write_shape c (csc_shape m) in
  let% _u := write_indices c (lit "indices") (map as_i64 (csc_indices m)) in
  let% _u := write_indices c (lit "indptr") (map as_i64 (csc_indptr m)) in
  write_data c t (csc_data m) [lenN (csc_data m)].
(** src/sparse.rs:514-525: the remainder by zero panics, the assertion panics *)
Definition dia_write_npz (c : cfg) (t : rty) (m : dia) : npz_writer -> res unit * npz_writer :=
  let% _u := write_format c (lit "dia") in
  let% _u := write_shape c (dia_shape m) in
  let% _u := write_indices c (lit "offsets") (dia_offsets m) in
  let num_offsets := lenN (dia_offsets m) in
  if num_offsets =? 0 then zret Panic
  else if negb (lenN (dia_data m) mod num_offsets =? 0) then zret Panic
  else write_data c t (dia_data m) [lenN (dia_data m) / num_offsets; num_offsets].
(** src/sparse.rs:540-550: the assertion panics, its products may overflow *)
Definition bsr_write_npz (c : cfg) (t : rty) (m : bsr) : npz_writer -> res unit * npz_writer :=
  let '(b0, b1) := bsr_blocksize m in
  let% _u := write_format c (lit "bsr") in
  let% _u := write_shape c (bsr_shape m) in
  let% _u := write_indices c (lit "indices") (map as_i64 (bsr_indices m)) in
  let% _u := write_indices c (lit "indptr") (map as_i64 (bsr_indptr m)) in
  let% n := zret (let* n := usize_mul c (lenN (bsr_indices m)) b0 in usize_mul c n b1) in
  if negb (lenN (bsr_data m) =? n) then zret Panic
  else write_data c t (bsr_data m) [lenN (bsr_indices m); b0; b1].
(** src/sparse.rs:421-429 *)
Definition sparse_write_npz (c : cfg) (t : rty) (m : sparse) : npz_writer -> res unit * npz_writer :=
  match m with
  | Coo m => coo_write_npz c t m
  | Csc m => csc_write_npz c t m
  | Csr m => csr_write_npz c t m
  | Dia m => dia_write_npz c t m
  | Bsr m => bsr_write_npz c t m
  end.
