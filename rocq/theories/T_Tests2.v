(** The repository's own tests, transcribed (see T_Tests1.v).
    Here: src/serialize/primitive.rs:302-508, src/serialize/slice.rs:838-1180, src/serialize/traits.rs:379-391, tests/serialize_array.rs. *)
From Verif Require Import M_Base M_Text M_TypeStr M_PyLit M_IO M_Header M_Read M_Serialize M_NpyReader M_Write T_Elem T_Reader T_Tests1.
Open Scope N_scope.

(** [DType::parse(s).unwrap()]; the tests use it on text that parses *)
Definition dt (s : string) : dtype := match dtype_parse (lit s) with Ok d => d | _ => DRecord [] end.
(** src/serialize/test_helpers.rs:37-90.  [Some v]: the value, all bytes having been read. *)
Definition reader_output (c : cfg) (t : rty) (d : dtype) (bs : bytes) : option val :=
  match reader c t d with DOk rd => match run (read_one c rd) bs with (Ok v, []) => Some v | _ => None end | DErr _ => None end.
Definition writer_output (c : cfg) (t : rty) (d : dtype) (v : val) : option bytes :=
  match writer c t d with DOk tw => match write_one c tw v with (bs, Ok _) => Some bs | _ => None end | DErr _ => None end.
Definition reader_ok (c : cfg) (t : rty) (d : dtype) : bool := match reader c t d with DOk _ => true | DErr _ => false end.
Definition writer_ok (c : cfg) (t : rty) (d : dtype) : bool := match writer c t d with DOk _ => true | DErr _ => false end.
Definition read_ok (c : cfg) (t : rty) (d : dtype) (bs : bytes) : bool := match reader_output c t d bs with Some _ => true | None => false end.
Definition read_err (c : cfg) (t : rty) (d : dtype) (bs : bytes) : bool := match reader c t d with DOk rd => failed (fst (run (read_one c rd) bs)) | DErr _ => false end.
Definition write_ok (c : cfg) (t : rty) (d : dtype) (v : val) : bool := match writer c t d with DOk tw => ok (snd (write_one c tw v)) | DErr _ => false end.
Definition write_err (c : cfg) (t : rty) (d : dtype) (v : val) : bool := match writer c t d with DOk tw => failed (snd (write_one c tw v)) | DErr _ => false end.
Fixpoint le_ (n : nat) (v : N) : bytes := match n with O => [] | S m => v mod 256 :: le_ m (v / 256) end.
Definition be_ (n : nat) (v : N) : bytes := rev (le_ n v).
(** Both ways. *)
Definition as_bytes (c : cfg) (t : rty) (d : dtype) (v : val) (bs : bytes) : Prop := reader_output c t d bs = Some v /\ writer_output c t d v = Some bs.

(** * src/serialize/primitive.rs *)
Definition t_i8 := RInt true W1. Definition t_u8 := RInt false W1. Definition t_i16 := RInt true W2. Definition t_u16 := RInt false W2.
Definition t_u32 := RInt false W4. Definition t_u64 := RInt false W8.
Example test_identity : forall c, In c machines ->
  as_bytes c t_i32 (dt "'>i4'") (XInt 1) (be_ 4 1) /\ as_bytes c t_i32 (dt "'<i4'") (XInt 1) (le_ 4 1)
  /\ as_bytes c t_u32 (dt "'>u4'") (XInt 1) (be_ 4 1) /\ as_bytes c t_u32 (dt "'<u4'") (XInt 1) (le_ 4 1)
  /\ as_bytes c t_i8 (dt "'>i1'") (XInt 1) [1] /\ as_bytes c t_i8 (dt "'<i1'") (XInt 1) [1] /\ as_bytes c t_i8 (dt "'|i1'") (XInt 1) [1]
  /\ as_bytes c t_u8 (dt "'>u1'") (XInt 1) [1] /\ as_bytes c t_u8 (dt "'<u1'") (XInt 1) [1] /\ as_bytes c t_u8 (dt "'|u1'") (XInt 1) [1].
Proof. on_machines; run_test. Qed.
(** 42.0 *)
Example test_native_float_types : forall c, In c machines ->
  as_bytes c (RFloat F8) (dt "'>f8'") (XFloat 0x4045000000000000) (be_ 8 0x4045000000000000)
  /\ as_bytes c (RFloat F8) (dt "'<f8'") (XFloat 0x4045000000000000) (le_ 8 0x4045000000000000)
  /\ as_bytes c (RFloat F4) (dt "'>f4'") (XFloat 0x42280000) (be_ 4 0x42280000)
  /\ as_bytes c (RFloat F4) (dt "'<f4'") (XFloat 0x42280000) (le_ 4 0x42280000).
Proof. on_machines; run_test. Qed.
Example test_native_bool : forall c, In c machines -> failed (dtype_parse (lit "'|b2'")) = true
  /\ as_bytes c RBool (dt "'|b1'") (XBool false) [0] /\ as_bytes c RBool (dt "'|b1'") (XBool true) [1]
  /\ read_err c RBool (dt "'|b1'") [2] = true /\ read_err c RBool (dt "'|b1'") [255] = true.
Proof. on_machines; run_test. Qed.
(** 42.69 as an f16 *)
Example test_native_half_types : forall c, In c machines ->
  as_bytes c (RFloat F2) (dt "'>f2'") (XFloat 0x5156) (be_ 2 0x5156) /\ as_bytes c (RFloat F2) (dt "'<f2'") (XFloat 0x5156) (le_ 2 0x5156).
Proof. on_machines; run_test. Qed.
(** 42.0 and 63.0 *)
Example test_native_complex_types : forall c, In c machines ->
  as_bytes c (RComplex X8) (dt "'>c16'") (XComplex 0x4045000000000000 0x404f800000000000) (be_ 8 0x4045000000000000 ++ be_ 8 0x404f800000000000)
  /\ as_bytes c (RComplex X8) (dt "'<c16'") (XComplex 0x4045000000000000 0x404f800000000000) (le_ 8 0x4045000000000000 ++ le_ 8 0x404f800000000000)
  /\ as_bytes c (RComplex X4) (dt "'>c8'") (XComplex 0x42280000 0x427c0000) (be_ 4 0x42280000 ++ be_ 4 0x427c0000)
  /\ as_bytes c (RComplex X4) (dt "'<c8'") (XComplex 0x42280000 0x427c0000) (le_ 4 0x42280000 ++ le_ 4 0x427c0000).
Proof. on_machines; run_test. Qed.
Example test_datetime_as_int : forall c, In c machines ->
  as_bytes c t_i64 (dt "'>m8[ns]'") (XInt 1) (be_ 8 1) /\ as_bytes c t_i64 (dt "'<m8[ns]'") (XInt 1) (le_ 8 1)
  /\ as_bytes c t_i64 (dt "'>M8[ns]'") (XInt 1) (be_ 8 1) /\ as_bytes c t_i64 (dt "'<M8[ns]'") (XInt 1) (le_ 8 1).
Proof. on_machines; run_test. Qed.
Example test_bad_datetime_types : forall c, In c machines ->
  ok (dtype_parse (lit "'>m8[ns]'")) = true /\ failed (dtype_parse (lit "'>m4[ns]'")) = true /\ failed (dtype_parse (lit "'>M4[ns]'")) = true
  /\ reader_ok c t_i64 (dt "'<M8[ns]'") = true /\ reader_ok c t_u64 (dt "'<M8[ns]'") = false
  /\ reader_ok c t_i64 (dt "'<m8[ns]'") = true /\ reader_ok c t_u64 (dt "'<m8[ns]'") = false.
Proof. on_machines; run_test. Qed.
Example test_wrong_size_int : forall c, In c machines ->
  forallb (fun t => negb (reader_ok c t (dt "'<i4'")) && negb (writer_ok c t (dt "'<i4'"))) [t_i64; t_i16] = true
  /\ forallb (fun t => negb (reader_ok c t (dt "'<u4'")) && negb (writer_ok c t (dt "'<u4'"))) [t_u64; t_u16] = true.
Proof. on_machines; run_test. Qed.
Definition default_text (c : cfg) (t : rty) : text := descr (default_of c t).
Example test_default_simple_type_strs :
  map (default_text be64) [t_i8; t_u8; t_i16; t_i32; t_i64; t_u32] = map lit ["'|i1'"; "'|u1'"; "'>i2'"; "'>i4'"; "'>i8'"; "'>u4'"]%string
  /\ map (default_text le64) [t_i8; t_u8; t_i16; t_i32; t_i64; t_u32] = map lit ["'|i1'"; "'|u1'"; "'<i2'"; "'<i4'"; "'<i8'"; "'<u4'"]%string.
Proof. run_test. Qed.
(** The test expects this of every machine; where the highest byte comes first it would fail. *)
Example test_default_complex_type_strs :
  map (default_text le64) [RComplex X4; RComplex X8] = map lit ["'<c8'"; "'<c16'"]%string
  /\ map (default_text be64) [RComplex X4; RComplex X8] = map lit ["'>c8'"; "'>c16'"]%string.
Proof. run_test. Qed.

(** * src/serialize/traits.rs *)
Example test_dynamic_readers_and_writers : forall c, In c machines -> exists bs,
  writer_output c t_i32 (default_of c t_i32) (XInt 4000) = Some bs /\ reader_output c t_i32 (default_of c t_i32) bs = Some (XInt 4000).
Proof. on_machines; (eexists; split; [ vm_compute; reflexivity | vm_compute; reflexivity ]). Qed.

(** * src/serialize/slice.rs *)
Example test_bytes_any_endianness : forall c, In c machines ->
  as_bytes c RVecU8 (dt "'<S3'") (XBytes [1; 3; 5]) [1; 3; 5] /\ as_bytes c RVecU8 (dt "'>S3'") (XBytes [1; 3; 5]) [1; 3; 5]
  /\ as_bytes c RVecU8 (dt "'|S3'") (XBytes [1; 3; 5]) [1; 3; 5].
Proof. on_machines; run_test. Qed.
Example test_length_zero : forall c, In c machines ->
  as_bytes c RVecU8 (dt "'|S0'") (XBytes []) [] /\ as_bytes c RVecU8 (dt "'|V0'") (XBytes []) [] /\ as_bytes c (RFixedBytes 0) (dt "'|V0'") (XBytes []) []
  /\ as_bytes c RVecU32 (dt "'>U0'") (XUnits []) [] /\ as_bytes c RVecChar (dt "'>U0'") (XUnits []) [] /\ as_bytes c RString (dt "'>U0'") (XStr []) []
  /\ as_bytes c RString (dt "'|S0'") (XStr []) [].
Proof. on_machines; run_test. Qed.
Definition be4 (l : list N) : bytes := List.concat (map (be_ 4) l).
Definition le4 (l : list N) : bytes := List.concat (map (le_ 4) l).
Definition s_3 := dt "'|S3'". Definition v_3 := dt "'|V3'". Definition u_3 := dt "'>U3'".
Example test_write_wrong_length : forall c, In c machines -> dt "'|a3'" = s_3
  /\ writer_output c RVecU8 s_3 (XBytes [1; 3; 5]) = Some [1; 3; 5] /\ writer_output c RVecU8 v_3 (XBytes [1; 3; 5]) = Some [1; 3; 5]
  /\ writer_output c RVecU32 u_3 (XUnits [1; 3; 5]) = Some (be4 [1; 3; 5]) /\ writer_output c RVecChar u_3 (XUnits [1; 3; 5]) = Some (be4 [1; 3; 5])
  /\ writer_output c RString u_3 (XStr [1; 3; 5]) = Some (be4 [1; 3; 5]) /\ writer_output c RString s_3 (XStr [1; 3; 5]) = Some [1; 3; 5]
  /\ writer_output c RVecU8 s_3 (XBytes [1]) = Some [1; 0; 0] /\ write_err c RVecU8 v_3 (XBytes [1]) = true
  /\ writer_output c RVecU32 u_3 (XUnits [1]) = Some (be4 [1; 0; 0]) /\ writer_output c RVecChar u_3 (XUnits [1]) = Some (be4 [1; 0; 0])
  /\ writer_output c RString u_3 (XStr [1]) = Some (be4 [1; 0; 0]) /\ writer_output c RString s_3 (XStr [1]) = Some [1; 0; 0]
  /\ writer_output c RVecU8 s_3 (XBytes []) = Some [0; 0; 0] /\ write_err c RVecU8 v_3 (XBytes []) = true
  /\ writer_output c RVecU32 u_3 (XUnits []) = Some (be4 [0; 0; 0]) /\ writer_output c RVecChar u_3 (XUnits []) = Some (be4 [0; 0; 0])
  /\ writer_output c RString u_3 (XStr []) = Some (be4 [0; 0; 0]) /\ writer_output c RString s_3 (XStr []) = Some [0; 0; 0]
  /\ write_err c RVecU8 s_3 (XBytes [1; 3; 5; 7]) = true /\ write_err c RVecU8 v_3 (XBytes [1; 3; 5; 7]) = true
  /\ write_err c RVecU32 u_3 (XUnits [1; 3; 5; 7]) = true /\ write_err c RVecChar u_3 (XUnits [1; 3; 5; 7]) = true
  /\ write_err c RString u_3 (XStr [1; 3; 5; 7]) = true /\ write_err c RString s_3 (XStr [1; 3; 5; 7]) = true.
Proof. on_machines; run_test. Qed.
Example test_write_wrong_length_arrayvec : forall c, In c machines ->
  writer_output c (RArrU8 2) s_3 (XBytes [1; 3]) = Some [1; 3; 0] /\ writer_output c (RArrU8 2) s_3 (XBytes [1]) = Some [1; 0; 0]
  /\ writer_output c (RArrU8 3) s_3 (XBytes [1; 3; 5]) = Some [1; 3; 5] /\ writer_output c (RArrU8 3) s_3 (XBytes [1]) = Some [1; 0; 0]
  /\ write_err c (RArrU8 4) s_3 (XBytes [1; 3; 5; 7]) = true /\ writer_output c (RArrU8 4) s_3 (XBytes [1]) = Some [1; 0; 0]
  /\ writer_ok c (RArrU8 2) v_3 = false /\ writer_output c (RArrU8 3) v_3 (XBytes [1; 3; 5]) = Some [1; 3; 5]
  /\ write_err c (RArrU8 3) v_3 (XBytes [1]) = true /\ write_err c (RArrU8 4) v_3 (XBytes [1; 3; 5; 7]) = true
  /\ writer_output c (RArrU8 4) v_3 (XBytes [1; 3; 5]) = Some [1; 3; 5] /\ write_err c (RArrU8 4) v_3 (XBytes [1]) = true.
Proof. on_machines; run_test. Qed.
Example test_fixed_size_bytes_restrictions : forall c, In c machines ->
  writer_ok c (RFixedBytes 3) s_3 = false /\ writer_ok c (RFixedBytes 2) v_3 = false /\ writer_ok c (RFixedBytes 4) v_3 = false
  /\ writer_output c (RFixedBytes 3) v_3 (XBytes [1; 3; 5]) = Some [1; 3; 5].
Proof. on_machines; run_test. Qed.
Definition s_2 := dt "'|S2'". Definition v_2 := dt "'|V2'". Definition u_2 := dt "'<U2'".
Example test_truncate_trailing_nuls : forall c, In c machines ->
  map (reader_output c RVecU8 s_2) [[1; 3]; [1; 0]; [0; 0]] = [Some (XBytes [1; 3]); Some (XBytes [1]); Some (XBytes [])]
  /\ map (reader_output c RVecU8 v_2) [[1; 3]; [1; 0]; [0; 0]] = [Some (XBytes [1; 3]); Some (XBytes [1; 0]); Some (XBytes [0; 0])]
  /\ map (reader_output c RVecU32 u_2) (map le4 [[1; 3]; [1; 0]; [0; 0]]) = [Some (XUnits [1; 3]); Some (XUnits [1]); Some (XUnits [])]
  /\ map (reader_output c RVecChar u_2) (map le4 [[1; 3]; [1; 0]; [0; 0]]) = [Some (XUnits [1; 3]); Some (XUnits [1]); Some (XUnits [])]
  /\ map (reader_output c RString u_2) (map le4 [[1; 3]; [1; 0]; [0; 0]]) = [Some (XStr [1; 3]); Some (XStr [1]); Some (XStr [])]
  /\ map (reader_output c RString s_2) [[1; 3]; [1; 0]; [0; 0]] = [Some (XStr [1; 3]); Some (XStr [1]); Some (XStr [])].
Proof. on_machines; run_test. Qed.
Example test_arrayvec_truncate_trailing_nuls : forall c, In c machines ->
  map (reader_output c (RArrU32 2) u_2) (map le4 [[1; 3]; [1; 0]; [0; 0]]) = [Some (XUnits [1; 3]); Some (XUnits [1]); Some (XUnits [])]
  /\ map (reader_output c (RArrChar 2) u_2) (map le4 [[1; 3]; [1; 0]; [0; 0]]) = [Some (XUnits [1; 3]); Some (XUnits [1]); Some (XUnits [])]
  /\ map (reader_output c (RArrString 2) s_2) [[1; 3]; [1; 0]; [0; 0]] = [Some (XStr [1; 3]); Some (XStr [1]); Some (XStr [])]
  /\ map (reader_output c (RArrU8 2) s_2) [[1; 3]; [1; 0]; [0; 0]] = [Some (XBytes [1; 3]); Some (XBytes [1]); Some (XBytes [])]
  /\ map (reader_output c (RArrU8 2) v_2) [[1; 3]; [1; 0]; [0; 0]] = [Some (XBytes [1; 3]); Some (XBytes [1; 0]); Some (XBytes [0; 0])].
Proof. on_machines; run_test. Qed.
Example test_preserve_interior_nuls : forall c, In c machines ->
  as_bytes c RVecU8 (dt "'|S6'") (XBytes [0; 1; 0; 0; 3; 5]) [0; 1; 0; 0; 3; 5]
  /\ as_bytes c RVecU32 (dt "'<U6'") (XUnits [0; 1; 0; 0; 3; 5]) (le4 [0; 1; 0; 0; 3; 5])
  /\ as_bytes c RVecChar (dt "'<U6'") (XUnits [0; 1; 0; 0; 3; 5]) (le4 [0; 1; 0; 0; 3; 5])
  /\ as_bytes c RString (dt "'<U6'") (XStr [0; 1; 0; 0; 3; 5]) (le4 [0; 1; 0; 0; 3; 5])
  /\ as_bytes c RString (dt "'|S6'") (XStr [0; 1; 0; 0; 3; 5]) [0; 1; 0; 0; 3; 5].
Proof. on_machines; run_test. Qed.
Example test_arrayvec_truncated_reading : forall c, In c machines ->
  reader_output c (RArrU32 2) (dt "'<U5'") (le4 [1; 3; 5; 7; 9]) = Some (XUnits [1; 3])
  /\ reader_output c (RArrChar 2) (dt "'<U5'") (le4 [1; 3; 5; 7; 9]) = Some (XUnits [1; 3])
  /\ reader_output c (RArrString 2) (dt "'|S5'") [1; 3; 5; 7; 9] = Some (XStr [1; 3])
  /\ reader_output c (RArrU8 2) (dt "'|S5'") [1; 3; 5; 7; 9] = Some (XBytes [1; 3]).
Proof. on_machines; run_test. Qed.
Example test_arrayvec_no_array_string_from_u : forall c, In c machines ->
  reader_ok c (RArrString 50) (dt "'|S6'") = true /\ reader_ok c (RArrString 50) (dt "'<U6'") = false
  /\ writer_ok c (RArrString 50) (dt "'|S6'") = true /\ writer_ok c (RArrString 50) (dt "'<U6'") = true.
Proof. on_machines; run_test. Qed.
(** a, b, U+306F (three bytes in UTF-8), e *)
Definition abhae : bytes := [0x61; 0x62; 0xe3; 0x81; 0xaf; 0x65].
Example test_arrayvec_truncated_in_middle_of_utf8_char : forall c, In c machines ->
  map (fun n => reader_output c (RArrString n) (dt "'|S6'") abhae) [2; 3; 4; 5]
    = [Some (XStr [0x61; 0x62]); Some (XStr [0x61; 0x62]); Some (XStr [0x61; 0x62]); Some (XStr [0x61; 0x62; 0x306f])]
  /\ map (fun n => reader_output c (RArrU8 n) (dt "'|S6'") abhae) [2; 3; 4; 5] = map (fun n => Some (XBytes (firstn n abhae))) [2; 3; 4; 5]%nat.
Proof. on_machines; run_test. Qed.
(** Vec and slices and references are one type in the model; the test checks that they behave alike. *)
Example test_serialize_types_that_deref_to_slices : forall c, In c machines ->
  writer_output c RVecU8 s_3 (XBytes [1; 3; 5]) = Some [1; 3; 5] /\ writer_output c RVecU32 (dt "'<U3'") (XUnits [1; 3; 5]) = Some (le4 [1; 3; 5])
  /\ writer_output c RVecChar (dt "'<U3'") (XUnits [1; 3; 5]) = Some (le4 [1; 3; 5]) /\ writer_output c RString (dt "'<U3'") (XStr [1; 3; 5]) = Some (le4 [1; 3; 5])
  /\ writer_output c RString s_3 (XStr [1; 3; 5]) = Some [1; 3; 5].
Proof. on_machines; run_test. Qed.
Definition u_1 := dt "'<U1'".
Example test_reading_invalid_utf32_or_utf8 : forall c, In c machines ->
  forallb (fun t => read_ok c t u_1 (le4 [0x10ffff]) && read_err c t u_1 (le4 [0x110000]) && read_err c t u_1 (le4 [0x110001]))
    [RVecU32; RVecChar; RString; RArrU32 1; RArrChar 1] = true
  /\ read_ok c RVecU32 u_1 (le4 [0xd805]) = true /\ read_err c RVecChar u_1 (le4 [0xd805]) = true /\ read_err c RString u_1 (le4 [0xd805]) = true
  /\ read_ok c (RArrU32 1) u_1 (le4 [0xd805]) = true /\ read_err c (RArrChar 1) u_1 (le4 [0xd805]) = true
  /\ read_err c RString s_3 [0xff; 0; 1] = true /\ read_err c (RArrString 3) s_3 [0xff; 0; 1] = true.
Proof. on_machines; run_test. Qed.
Example test_writing_invalid_utf32 : forall c, In c machines ->
  write_ok c RVecU32 u_1 (XUnits [0x10ffff]) = true /\ write_err c RVecU32 u_1 (XUnits [0x110000]) = true
  /\ write_err c RVecU32 u_1 (XUnits [0x110001]) = true /\ write_ok c RVecU32 u_1 (XUnits [0xd805]) = true.
Proof. on_machines; run_test. Qed.

(** * tests/serialize_array.rs *)
Definition array3 : rty := RStruct [(lit "field", RArray 3 t_i32)].
Definition array23 : rty := RStruct [(lit "field", RArray 2 (RArray 3 t_i32))].
Definition refused (c : cfg) (t : rty) (d : dtype) : bool := negb (reader_ok c t d) && negb (writer_ok c t d).
Definition int3 (a b d : Z) : val := XSeq [XInt a; XInt b; XInt d].
(** On a machine whose lowest byte comes first, as the test's bytes presume. *)
Example test_array_read_write : as_bytes le64 array3 (default_of le64 array3) (XRec [int3 1 3 5]) (le4 [1; 3; 5]) /\ refused le64 array23 (default_of le64 array3) = true.
Proof. run_test. Qed.
Example test_array_read_write_explicit_dtype : forall c, In c machines ->
  as_bytes c array3 (dt "[('field', '<i4', (3,))]") (XRec [int3 1 3 5]) (le4 [1; 3; 5]) /\ refused c array23 (dt "[('field', '<i4', (3,))]") = true.
Proof. on_machines; run_test. Qed.
Example test_array_read_write_nested : forall c, In c machines ->
  as_bytes c array23 (dt "[('field', '<i4', (2, 3))]") (XRec [XSeq [int3 1 3 5; int3 7 9 11]]) (le4 [1; 3; 5; 7; 9; 11])
  /\ refused c array3 (dt "[('field', '<i4', (2, 3))]") = true.
Proof. on_machines; run_test. Qed.
Example test_array_incompatible : forall c, In c machines ->
  forallb (fun s => ok (dtype_parse (lit s)) && refused c array3 (dt s)) ["[('field', '<i4', (2,))]"; "[('field', '<i4')]"; "[('field', [('lol', '<i4')])]"]%string = true.
Proof. on_machines; run_test. Qed.
Example test_array_default_dtype :
  default_of le64 array3 = DRecord [(lit "field", DArray 3 (pl "<i4"))] /\ default_of be64 array3 = DRecord [(lit "field", DArray 3 (pl ">i4"))]
  /\ default_of le64 array23 = DRecord [(lit "field", DArray 2 (DArray 3 (pl "<i4")))] /\ default_of be64 array23 = DRecord [(lit "field", DArray 2 (DArray 3 (pl ">i4")))].
Proof. run_test. Qed.
Definition close_the_gap : rty := RStruct [(lit "left", t_i64); (lit "middle", RArray 2 (RArray 0 (RArray 3 t_i32))); (lit "right", t_i32)].
Example test_zero_len_read_write :
  as_bytes le64 close_the_gap (default_of le64 close_the_gap) (XRec [XInt 12; XSeq [XSeq []; XSeq []]; XInt 5]) (le_ 8 12 ++ le_ 4 5).
Proof. run_test. Qed.
