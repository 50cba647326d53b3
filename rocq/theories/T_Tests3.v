(** The repository's own tests, transcribed (see T_Tests1.v), over the files it keeps for them (T_TestData.v).
    Here: tests/nd.rs, tests/npz.rs, tests/strings.rs, tests/roundtrip.rs, tests/sparse.rs, examples/pickle.rs, and the examples in the documentation (src/lib.rs:33-120, 203-250). *)
From Verif Require Import M_Base M_Text M_TypeStr M_PyLit M_IO M_Header M_Read M_Serialize M_NpyReader M_Write M_Npz M_Sparse M_Own.
From Verif Require Import T_Elem T_Reader T_TestData T_Tests1 T_Tests2.
Open Scope N_scope.

(** * tests/nd.rs *)
Definition c_order_vec : list val := ints [1;1;1;1;2;2;2;2;3;3;3;3;4;4;4;4;5;5;5;5;6;6;6;6]%Z.
Definition fortran_order_vec : list val := ints [1;4;2;5;3;6;1;4;2;5;3;6;1;4;2;5;3;6;1;4;2;5;3;6]%Z.
Definition strides_of (c : cfg) (bs : bytes) : list N := match npy_new c (from_start bs) with (Ok f, _) => h_strides (nf_header f) | _ => [] end.
Example test_read_c_order : forall c, In c machines ->
  read_back c t_i64 file_c_order = Some ([2; 3; 4], OrderC, c_order_vec) /\ strides_of c file_c_order = [12; 4; 1].
Proof. on_machines; run_test. Qed.
Example test_read_fortran_order : forall c, In c machines ->
  read_back c t_i64 file_f_order = Some ([2; 3; 4], OrderFortran, fortran_order_vec) /\ strides_of c file_f_order = [1; 2; 6].
Proof. on_machines; run_test. Qed.
Example test_write_c_order : forall c, In c machines ->
  read_back c t_i64 (sk_data (snd (written c t_i64 OrderC (NDimensional [2; 3; 4]) false c_order_vec []))) = Some ([2; 3; 4], OrderC, c_order_vec).
Proof. on_machines; run_test. Qed.
Example test_write_fortran_order : forall c, In c machines ->
  read_back c t_i64 (sk_data (snd (written c t_i64 OrderFortran (NDimensional [2; 3; 4]) false fortran_order_vec []))) = Some ([2; 3; 4], OrderFortran, fortran_order_vec).
Proof. on_machines; run_test. Qed.

(** * tests/npz.rs *)
Definition member (c : cfg) (t : rty) (a : archive) (name : string) : option (list N * list val) :=
  match by_name c a (lit name) with
  | Ok (Some f) => match npy_into_vec c t f with (Ok vs, _) => Some (h_shape (nf_header f), vs) | _ => None end
  | _ => None
  end.
(** The order of names is not specified. *)
Definition basic_read (c : cfg) (a : archive) : Prop :=
  (array_names a = [lit "floats"; lit "ints"] \/ array_names a = [lit "ints"; lit "floats"])
  /\ member c t_i64 a "ints" = Some ([4], ints [1; 2; 3; 4]%Z) /\ member c t_f64 a "floats" = Some ([2; 1], [f_1; f_2])
  /\ by_name c a (lit "non-existent") = Ok None.
Ltac basic := split; [ first [ left; vm_compute; reflexivity | right; vm_compute; reflexivity ] | split; [ vm_compute; reflexivity | split; vm_compute; reflexivity ] ].
Example test_read_uncompressed : forall c, In c machines -> basic_read c file_uncompressed.
Proof. on_machines; basic. Qed.
Example test_read_compressed : forall c, In c machines -> basic_read c file_compressed.
Proof. on_machines; basic. Qed.
Definition basic_write_test (c : cfg) : res unit * npz_writer :=
  (let% _u := npz_array (lit "ints") (extend_and_drop c t_i64 (default_of c t_i64) OrderC [4] (ints [1; 2; 3; 4]%Z)) in
   npz_array (lit "floats") (extend_and_drop c t_f64 (default_of c t_f64) OrderC [2; 1] [f_1; f_2])) npz_new.
Example test_basic_write : forall c, In c machines -> fst (basic_write_test c) = Ok tt /\ basic_read c (nz_entries (snd (basic_write_test c))).
Proof. on_machines; (split; [ vm_compute; reflexivity | basic ]). Qed.

(** * tests/strings.rs *)
Definition file_items (c : cfg) (t : rty) (bs : bytes) : res (list val) :=
  match npy_new c (from_start bs) with (Ok f, _) => fst (npy_into_vec c t f) | (Err e, _) => Err e | (Panic, _) => Panic end.
(** alpha, beta, o, u, t *)
Definition alphabetaout : list N := [0x3b1; 0x3b2; 0x6f; 0x75; 0x74].
Example test_unicode_files : forall c, In c machines ->
  file_items c RString file_unicode_ok = Ok [XStr alphabetaout] /\ failed (file_items c RString file_unicode_surrogate) = true
  /\ failed (file_items c RString file_unicode_surrogate_pair) = true
  /\ file_items c RVecChar file_unicode_ok = Ok [XUnits alphabetaout] /\ failed (file_items c RVecChar file_unicode_surrogate) = true
  /\ failed (file_items c RVecChar file_unicode_surrogate_pair) = true
  /\ file_items c RVecU32 file_unicode_ok = Ok [XUnits alphabetaout] /\ file_items c RVecU32 file_unicode_surrogate = Ok [XUnits [0xd805]]
  /\ file_items c RVecU32 file_unicode_surrogate_pair = Ok [XUnits [0xd834; 0xdd1e]].
Proof. on_machines; run_test. Qed.
Definition file_of (c : cfg) (t : rty) (d : dtype) (h : shape_hint) (seekable : bool) (vs : list val) : bytes :=
  match write_file c t d OrderC h seekable vs empty_sink with (Ok _, s) => sk_data s | _ => [] end.
Definition three_strings : list (list N) := [lit "abc"; alphabetaout; [0x1d11e]].
Example test_writing_strings : forall c, In c machines ->
  file_items c RVecChar (file_of c RVecChar (pl "<U5") OneDimensional true (map XUnits three_strings)) = Ok (map XUnits three_strings)
  /\ file_items c RVecChar (file_of c RString (pl "<U5") OneDimensional true (map XStr three_strings)) = Ok (map XUnits three_strings).
Proof. on_machines; run_test. Qed.

(** * tests/roundtrip.rs *)
Definition version_of (bs : bytes) : bytes := takeN 2 (dropN 6 bs).
Definition dtype_in (c : cfg) (bs : bytes) : option dtype := match npy_new c (from_start bs) with (Ok f, _) => Some (h_dtype (nf_header f)) | _ => None end.
(** The struct of lines 24-42, one field of which has a type defined in the test. *)
Definition nested : rty := RStruct [(lit "v1", RFloat F4); (lit "v2", RFloat F4)].
Definition array_front : list (text * rty) :=
  [(lit "v_i8", t_i8); (lit "v_i16", t_i16); (lit "v_i32", t_i32); (lit "v_i64", t_i64); (lit "v_u8", t_u8); (lit "v_u16", t_u16); (lit "v_u32", t_u32); (lit "v_u64", t_u64);
   (lit "v_f16", RFloat F2); (lit "v_f32", RFloat F4); (lit "v_f64", RFloat F8); (lit "v_arr_u32", RArray 7 t_u32); (lit "v_mat_u64", RArray 5 (RArray 3 t_u64))].
Definition array_default (c : cfg) : dtype :=
  DRecord (map (fun f => (fst f, default_of c (snd f))) array_front ++ [(lit "vec", DArray 5 (pl "<i4")); (lit "nested", default_of c nested)]).
Definition array_de (c : cfg) : own_deserialize val := derived_deserialize XRec
  (map (fun f => (fst f, provided_deserialize c (snd f))) array_front ++ [(lit "vec", vector5_deserialize); (lit "nested", provided_deserialize c nested)]).
Definition array_se (c : cfg) : own_serialize val := derived_serialize (fun v => match v with XRec l => l | _ => [] end)
  (map (fun f => (fst f, provided_serialize c (snd f))) array_front ++ [(lit "vec", vector5_serialize); (lit "nested", provided_serialize c nested)]).
(** Row [i] of lines 118-139; [h], [s] and [d] are the bits of [i] as a float of two, four and eight bytes and [t] those of [10 i]. *)
Definition array_row (i : Z) (h s d t : N) : val :=
  let j := (i * 5 + 2)%Z in let k := (i * 2 + 5)%Z in
  XRec [XInt i; XInt i; XInt i; XInt i; XInt i; XInt i; XInt i; XInt i; XFloat h; XFloat s; XFloat d; XSeq (ints [j; 1+j; 2+j; 3+j; 4+j; 5+j; 6+j]%Z);
        XSeq (map (fun m => int3 (3*m+k) (3*m+k+1) (3*m+k+2))%Z [0; 1; 2; 3; 4]%Z); XSeq (ints [1; 2; 3; 4; 5]%Z); XRec [XFloat t; XFloat s]].
(** Rows 0, 1, 2 and 99 of the hundred. *)
Definition array_rows : list val := [array_row 0 0 0 0 0; array_row 1 0x3c00 0x3f800000 0x3ff0000000000000 0x41200000;
  array_row 2 0x4000 0x40000000 0x4000000000000000 0x41a00000; array_row 99 0x5630 0x42c60000 0x4058c00000000000 0x44778000].
Definition array_file (c : cfg) : bytes :=
  match own_write_file c (array_se c) (array_default c) OrderC OneDimensional true array_rows empty_sink with (Ok _, s) => sk_data s | _ => [] end.
Definition array_again (c : cfg) : res (list val) := match npy_new c (from_start (array_file c)) with (Ok f, _) => fst (own_into_vec (array_de c) f) | _ => Panic end.
Example test_roundtrip_array : forall c, In c [le64; be64] -> version_of (array_file c) = [1; 0] /\ array_again c = Ok array_rows.
Proof. intros ? [<- | [<- | []]]; (split; [ vm_compute; reflexivity | vm_compute; reflexivity ]). Qed.
Example test_roundtrip_with_plain_dtype : forall c, In c machines -> file_items c t_f64 (to_bytes_1d c t_f64 [f_2; f_3; f_4; f_5]) = Ok [f_2; f_3; f_4; f_5].
Proof. on_machines; run_test. Qed.
(** What the remaining tests of this file have in common: the data end the file as expected; the dtype and the items are read back. *)
Definition round_trips (c : cfg) (t : rty) (d : dtype) (h : shape_hint) (seekable : bool) (vs : list val) (data : bytes) : Prop :=
  let bs := file_of c t d h seekable vs in
  dropN (lenN bs - lenN data) bs = data /\ dtype_in c bs = Some d /\ file_items c t bs = Ok vs.
Ltac trip := (split; [ vm_compute; reflexivity | split; [ vm_compute; reflexivity | vm_compute; reflexivity ] ]).
Definition fields (l : list (string * string)) : dtype := DRecord (map (fun f => (lit (fst f), pl (snd f))) l).
Definition row_of (l : list (string * rty)) : rty := RStruct (map (fun f => (lit (fst f), snd f)) l).
Example test_roundtrip_byteorder : forall c, In c machines ->
  round_trips c (row_of [("be_u32", t_u32); ("le_u32", t_u32); ("be_f16", RFloat F2); ("le_f16", RFloat F2); ("be_f32", RFloat F4); ("le_f32", RFloat F4); ("be_i8", t_i8); ("le_i8", t_i8); ("na_i8", t_i8)]%string)
    (fields [("be_u32", ">u4"); ("le_u32", "<u4"); ("be_f16", ">f2"); ("le_f16", "<f2"); ("be_f32", ">f4"); ("le_f32", "<f4"); ("be_i8", ">i1"); ("le_i8", "<i1"); ("na_i8", "|i1")]%string)
    OneDimensional true
    [XRec [XInt 0x01020304; XInt 0x01020304; XFloat 0xfc00; XFloat 0xfc00; XFloat 0xdeadbeef; XFloat 0xdeadbeef; XInt 5; XInt 6; XInt 7]]
    [1; 2; 3; 4; 4; 3; 2; 1; 0xfc; 0; 0; 0xfc; 0xde; 0xad; 0xbe; 0xef; 0xef; 0xbe; 0xad; 0xde; 5; 6; 7].
Proof. on_machines; trip. Qed.
Example test_roundtrip_datetime : forall c, In c machines ->
  round_trips c (row_of [("datetime", t_i64); ("timedelta_le", t_i64); ("timedelta_be", t_i64)]%string) (fields [("datetime", "<M8[ns]"); ("timedelta_le", "<m8[D]"); ("timedelta_be", ">m8[D]")]%string)
    OneDimensional true [XRec (ints [1293840000000000000; 1; 1]%Z)] (le_ 8 1293840000000000000 ++ le_ 8 1 ++ be_ 8 1).
Proof. on_machines; trip. Qed.
Definition lol : bytes := 0 :: lit "lol" ++ 0 :: lit "lol".
Example test_roundtrip_bytes : forall c, In c machines ->
  round_trips c (row_of [("bytestr", RVecU8); ("raw", RVecU8)]%string) (fields [("bytestr", "|S12"); ("raw", "|V12")]%string)
    OneDimensional true [XRec [XBytes lol; XBytes (lol ++ [0; 0; 0; 0])]] (lol ++ [0; 0; 0; 0] ++ lol ++ [0; 0; 0; 0]).
Proof. on_machines; trip. Qed.
Example test_roundtrip_bytes_byteorder : forall c, In c machines ->
  round_trips c (row_of [("s_le", RVecU8); ("s_be", RVecU8); ("s_na", RVecU8); ("v_le", RVecU8); ("v_be", RVecU8); ("v_na", RVecU8)]%string)
    (fields [("s_le", "<S4"); ("s_be", ">S4"); ("s_na", "|S4"); ("v_le", "<V4"); ("v_be", ">V4"); ("v_na", "|V4")]%string)
    OneDimensional true [XRec (repeat (XBytes (lit "abcd")) 6)] (List.concat (repeat (lit "abcd") 6)).
Proof. on_machines; trip. Qed.
Example test_nested_array_of_struct : forall c, In c machines ->
  round_trips c (row_of [("foo", RArray 3 (row_of [("bar", t_f64)]))]%string) (DRecord [(lit "foo", DArray 3 (fields [("bar", "<f8")]%string))])
    OneDimensional true [XRec [XSeq [XRec [f_1]; XRec [f_2]; XRec [f_3]]]] (le_ 8 0x3ff0000000000000 ++ le_ 8 0x4000000000000000 ++ le_ 8 0x4008000000000000).
Proof. on_machines; trip. Qed.
Example test_roundtrip_zero_length_array_member : forall c, In c machines ->
  round_trips c (row_of [("a", t_i32); ("b", RArray 3 (RArray 0 (RArray 7 t_i32)))]%string) (DRecord [(lit "a", pl "<i4"); (lit "b", DArray 3 (DArray 0 (DArray 7 (pl "<i4"))))])
    OneDimensional true [XRec [XInt 3; XSeq [XSeq []; XSeq []; XSeq []]]; XRec [XInt 4; XSeq [XSeq []; XSeq []; XSeq []]]] (le_ 4 3 ++ le_ 4 4).
Proof. on_machines; trip. Qed.
Example test_roundtrip_scalar : forall c, In c machines -> round_trips c t_i32 (pl "<i4") (NDimensional []) false [XInt 1] [1; 0; 0; 0].
Proof. on_machines; trip. Qed.
Definition row3 : rty := RStruct [(lit "num", t_i32); ([0x3b1; 0x3b2], t_i32)].
Definition row3_dtype : dtype := DRecord [(lit "num", pl "<i4"); ([0x3b1; 0x3b2], pl "<i4")].
Example test_roundtrip_version3 : forall c, In c machines ->
  round_trips c row3 row3_dtype (NDimensional [1]) false [XRec [XInt 1; XInt 2]] [1; 0; 0; 0; 2; 0; 0; 0]
  /\ version_of (file_of c row3 row3_dtype (NDimensional [1]) false [XRec [XInt 1; XInt 2]]) = [3; 0].
Proof. on_machines; (split; [ trip | vm_compute; reflexivity ]). Qed.

(** * tests/sparse.rs *)
Definition example_coo : coo := {| coo_shape := (3, 6); coo_data := ints [1; 4; 2; 6; 7]%Z; coo_row := [0; 0; 1; 2; 2]; coo_col := [0; 2; 1; 0; 2] |}.
Definition example_csr : csr := {| csr_shape := (3, 6); csr_data := ints [1; 4; 2; 6; 7]%Z; csr_indices := [0; 2; 1; 0; 2]; csr_indptr := [0; 2; 3; 5] |}.
Definition example_csc : csc := {| csc_shape := (3, 6); csc_data := ints [1; 6; 2; 4; 7]%Z; csc_indices := [0; 2; 1; 0; 2]; csc_indptr := [0; 2; 3; 5; 5; 5; 5] |}.
Definition example_dia : dia := {| dia_shape := (3, 6); dia_data := ints [6; 0; 0; 1; 2; 7; 0; 0; 4]%Z; dia_offsets := [-2; 0; 2]%Z |}.
Definition example_bsr : bsr := {| bsr_shape := (3, 6); bsr_blocksize := (1, 2); bsr_data := ints [1; 0; 4; 0; 0; 2; 6; 0; 7; 0]%Z; bsr_indices := [0; 1; 0; 0; 1]; bsr_indptr := [0; 2; 3; 5] |}.
Definition example_coo_long : coo := {| coo_shape := (0x800000000, 0x1000000000); coo_data := ints [3; 1]%Z; coo_row := [0x400000000; 3]; coo_col := [4; 0x200000000] |}.
Definition example_dia_long : dia := {| dia_shape := (0x800000000, 2); dia_data := ints [0; 1]%Z; dia_offsets := [- 0x800000000 + 3]%Z |}.
Definition example_coo_dupes : coo := {| coo_shape := (5, 5); coo_data := ints [10; 20]%Z; coo_row := [2; 2]; coo_col := [3; 3] |}.
Definition example_csr_unsorted : csr := {| csr_shape := (3, 3); csr_data := ints [2; 2; 1; 2; 2]%Z; csr_indices := [2; 0; 1; 2; 0]; csr_indptr := [0; 2; 3; 5] |}.
Example test_read_sparse_coo : forall c, In c machines -> coo_from_npz c t_i64 file_sparse_coo = Ok example_coo.
Proof. on_machines; run_test. Qed.
Example test_read_sparse_csr : forall c, In c machines -> csr_from_npz c t_i64 file_sparse_csr = Ok example_csr.
Proof. on_machines; run_test. Qed.
Example test_read_sparse_csc : forall c, In c machines -> csc_from_npz c t_i64 file_sparse_csc = Ok example_csc.
Proof. on_machines; run_test. Qed.
Example test_read_sparse_dia : forall c, In c machines -> dia_from_npz c t_i64 file_sparse_dia = Ok example_dia.
Proof. on_machines; run_test. Qed.
Example test_read_sparse_bsr : forall c, In c machines -> bsr_from_npz c t_i64 file_sparse_bsr = Ok example_bsr.
Proof. on_machines; run_test. Qed.
Example test_read_sparse_dynamic : forall c, In c machines ->
  map (sparse_from_npz c t_i64) [file_sparse_coo; file_sparse_csr; file_sparse_csc; file_sparse_bsr; file_sparse_dia]
  = [Ok (Coo example_coo); Ok (Csr example_csr); Ok (Csc example_csc); Ok (Bsr example_bsr); Ok (Dia example_dia)].
Proof. on_machines; run_test. Qed.
(** lines 8-19 *)
Definition again {M} (write : npz_writer -> res unit * npz_writer) (read : archive -> res M) : res M :=
  match write npz_new with (Ok _, z) => read (nz_entries z) | (Err e, _) => Err e | (Panic, _) => Panic end.
Example test_write_sparse_each : forall c, In c machines ->
  again (coo_write_npz c t_i64 example_coo) (coo_from_npz c t_i64) = Ok example_coo /\ again (csr_write_npz c t_i64 example_csr) (csr_from_npz c t_i64) = Ok example_csr
  /\ again (csc_write_npz c t_i64 example_csc) (csc_from_npz c t_i64) = Ok example_csc /\ again (bsr_write_npz c t_i64 example_bsr) (bsr_from_npz c t_i64) = Ok example_bsr
  /\ again (dia_write_npz c t_i64 example_dia) (dia_from_npz c t_i64) = Ok example_dia.
Proof. on_machines; run_test. Qed.
Example test_write_sparse_dynamic : forall c, In c machines ->
  map (fun m => again (sparse_write_npz c t_i64 m) (sparse_from_npz c t_i64)) [Csr example_csr; Csc example_csc; Coo example_coo; Dia example_dia; Bsr example_bsr]
  = map Ok [Csr example_csr; Csc example_csc; Coo example_coo; Dia example_dia; Bsr example_bsr].
Proof. on_machines; run_test. Qed.
Definition says {A} (s : string) (r : res A) : bool := match r with Err (EData msg) => contains (lit s) msg | _ => false end.
Example test_read_wrong_format_err : forall c, In c machines -> says "format" (csr_from_npz c t_i64 file_sparse_coo) = true.
Proof. on_machines; run_test. Qed.
Example test_sparse_with_long_indices : forall c, In c machines ->
  coo_from_npz c t_i64 file_sparse_coo_long = Ok example_coo_long /\ again (coo_write_npz c t_i64 example_coo_long) (coo_from_npz c t_i64) = Ok example_coo_long.
Proof. on_machines; run_test. Qed.
Example test_sparse_dia_with_long_offsets : forall c, In c machines ->
  dia_from_npz c t_i64 file_sparse_dia_long = Ok example_dia_long /\ again (dia_write_npz c t_i64 example_dia_long) (dia_from_npz c t_i64) = Ok example_dia_long.
Proof. on_machines; run_test. Qed.
Example test_sparse_coo_with_dupes : forall c, In c machines ->
  coo_from_npz c t_i64 file_sparse_coo_dupes = Ok example_coo_dupes /\ again (coo_write_npz c t_i64 example_coo_dupes) (coo_from_npz c t_i64) = Ok example_coo_dupes.
Proof. on_machines; run_test. Qed.
Example test_sparse_csr_unsorted : forall c, In c machines ->
  csr_from_npz c t_i64 file_sparse_csr_unsorted = Ok example_csr_unsorted /\ again (csr_write_npz c t_i64 example_csr_unsorted) (csr_from_npz c t_i64) = Ok example_csr_unsorted.
Proof. on_machines; run_test. Qed.
Example test_read_fortran_order_err : forall c, In c machines -> says "ortran" (bsr_from_npz c t_i64 file_sparse_bsr_f_order) = true.
Proof. on_machines; run_test. Qed.
Example test_read_bad_dimension_err : forall c, In c machines -> says "ndim" (bsr_from_npz c t_i64 file_sparse_bsr_bad_ndim) = true.
Proof. on_machines; run_test. Qed.

(** * The examples in the documentation *)
(** src/lib.rs:33-62: 1, 3.5, -6, 2.3 *)
Example doc_plain : forall c, In c machines ->
  file_items c t_f64 file_plain = Ok (map XFloat [0x3ff0000000000000; 0x400c000000000000; 0xc018000000000000; 0x4002666666666666]).
Proof. on_machines; run_test. Qed.
(** src/lib.rs:64-80: the example prints what [into_vec::<f64>] gives for this file; its items are integers, so that is an error. *)
Example doc_inspecting : forall c, In c machines ->
  read_back c t_i64 file_c_order = Some ([2; 3; 4], OrderC, c_order_vec) /\ strides_of c file_c_order = [12; 4; 1]
  /\ says "f64" (file_items c t_f64 file_c_order) = true.
Proof. on_machines; run_test. Qed.
(** src/lib.rs:88-112 *)
Example doc_writing : forall c, In c machines -> 
  round_trips c t_i32 (default_of c t_i32) (NDimensional [2; 3]) false (ints [100; 101; 102; 200; 201; 202]%Z)
    (List.concat (map (fun n => if c_big c then be_ 4 n else le_ 4 n) [100; 101; 102; 200; 201; 202])).
Proof. on_machines; trip. Qed.
(** src/lib.rs:203-250: 1, 2.5, 4 and 2, 3.1, 5 *)
Example doc_structured : forall c, In c machines ->
  file_items c (row_of [("a", t_i32); ("b", RFloat F4); ("c", t_i64)]%string) file_structured
  = Ok [XRec [XInt 1; XFloat 0x40200000; XInt 4]; XRec [XInt 2; XFloat 0x40466666; XInt 5]].
Proof. on_machines; run_test. Qed.
(** The file of examples/pickle.rs: its items are Python objects; the header can be read, the items cannot. *)
Example doc_pickle : forall c, In c machines ->
  dtype_in c file_pickle = Some (pl "|O") /\ says "pickle" (file_items c t_i64 file_pickle) = true.
Proof. on_machines; run_test. Qed.
