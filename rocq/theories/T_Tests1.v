(** The repository's own tests, transcribed: what its authors say the code does, computed in the model.  They are tests of the model, not properties;
    each Example carries the name of the test.  (Tests that every machine passes are computed for three.)
    Here: src/type_str.rs:557-721, src/header.rs:344-590, src/read.rs:623-726, src/write.rs:851-1094. *)
From Verif Require Import M_Base M_Text M_TypeStr M_PyLit M_IO M_Header M_Read M_Serialize M_NpyReader M_Write T_Elem T_Reader.
Open Scope N_scope.

Definition ok {A} (r : res A) : bool := match r with Ok _ => true | _ => false end.
Definition failed {A} (r : res A) : bool := match r with Err _ => true | _ => false end.
Definition panicked {A} (r : res A) : bool := match r with Panic => true | _ => false end.
Definition machines : list cfg := [le64; be64; le32].
Ltac on_machines := intros ? [<- | [<- | [<- | []]]].
Ltac run_test := vm_compute; repeat split; reflexivity.

(** * src/type_str.rs *)
Definition ts (s : string) : type_str := match type_str_parse (lit s) with TsOk t => t | _ => {| ts_endianness := Little; ts_char := TObject; ts_size := 0; ts_units := None |} end.
Definition ts_ok (s : string) : bool := match type_str_parse (lit s) with TsOk _ => true | _ => false end.
Definition ts_err (s : string) : bool := match type_str_parse (lit s) with TsErr _ => true | _ => false end.
Definition ts_syntax (s : string) : bool := match type_str_parse (lit s) with TsErr SyntaxError => true | _ => false end.
(** type_str.rs:582-642 *)
Example test_errors :
  forallb ts_syntax [""; ">"; ">m"; ">m8["; ">m8[us"; ">m8[us]garbage"; ">m8[us]]"; ">i"; "|O4"; ">i8garbage"; ">m[us]"]%string = true
  /\ forallb ts_ok [">m8[us]"; ">m8[D]"; ">i8"; ">c16"; "|O"; "<i8"; "|i1"; "|S7"; "|V7"; "|S0"; ">U0"; "|V0"]%string = true
  /\ forallb ts_err [">m999999999999999999999999999999[us]"; ">i999999999999999999999999999999"; "*i8"; "<p8"; ">m8[bus]"; ">m8[usb]"; ">m8[xq]"]%string = true
  /\ forallb (fun s => match type_str_parse (lit s) with TsErr (InvalidEndianness _) => true | _ => false end) ["|i8"; "|U1"]%string = true
  /\ forallb (fun s => match type_str_parse (lit s) with TsErr (InvalidSize _) => true | _ => false end) [">i9"; ">m4[us]"; ">b4"]%string = true
  /\ forallb (fun s => match type_str_parse (lit s) with TsErr (MissingOrUnexpectedUnits _) => true | _ => false end) [">i8[us]"; ">m8"]%string = true.
Proof. run_test. Qed.
(** type_str.rs:653-691 *)
Example test_display_simple :
  type_str_display {| ts_endianness := Little; ts_char := TInt; ts_size := 8; ts_units := None |} = lit "<i8"
  /\ type_str_display {| ts_endianness := Irrelevant; ts_char := TByteStr; ts_size := 13; ts_units := None |} = lit "|S13"
  /\ type_str_display {| ts_endianness := Irrelevant; ts_char := TObject; ts_size := 0; ts_units := None |} = lit "|O"
  /\ type_str_display {| ts_endianness := Big; ts_char := TTimeDelta; ts_size := 8; ts_units := Some Nanosecond |} = lit ">m8[ns]".
Proof. run_test. Qed.
(** type_str.rs:693-720 *)
Example test_roundtrip : forallb (fun s => match type_str_parse (lit s) with TsOk t => eqb_list (type_str_display t) (lit s) | _ => false end)
  [">i8"; ">f16"; "<i8"; "<i1"; ">i1"; "|i1"; "|S7"; "|S0"; "<S0"; ">U3"; "|O"; "<m8[D]"; ">m8[ms]"]%string = true.
Proof. run_test. Qed.

(** * src/header.rs *)
Definition pl (s : string) : dtype := DPlain (ts s).
(** header.rs:587-589; tests use it on text that parses *)
Definition py (s : string) : value := match parse_literal (lit s) with Some v => v | None => VNone end.
Example test_description_of_record_array_as_python_list_of_tuples :
  descr (DRecord [(lit "float", pl ">f4"); (lit "byte", pl "<u1")]) = lit "[('float', '>f4'), ('byte', '<u1'), ]".
Proof. run_test. Qed.
Example test_description_of_unstructured_primitive_array : descr (pl ">f8") = lit "'>f8'".
Proof. run_test. Qed.
Example test_description_of_nested_record_dtype :
  descr (DRecord [(lit "parent", DRecord [(lit "child", pl "<i4")])]) = lit "[('parent', [('child', '<i4'), ]), ]".
Proof. run_test. Qed.
Example test_converts_simple_description_to_plain_dtype : from_descr (VString (lit ">f8")) = Ok (pl ">f8").
Proof. run_test. Qed.
Example test_converts_non_endian_description_to_plain_dtype : from_descr (VString (lit "|u1")) = Ok (pl "|u1").
Proof. run_test. Qed.
Example test_converts_object_description_to_plain_dtype : from_descr (VString (lit "|O")) = Ok (pl "|O").
Proof. run_test. Qed.
Example test_converts_record_description_to_record_dtype :
  from_descr (py "[('a', '<u2'), ('b', '<f4')]") = Ok (DRecord [(lit "a", pl "<u2"); (lit "b", pl "<f4")]).
Proof. run_test. Qed.
Example test_handles_variable_size_record :
  from_descr (py "[('a', '<u2'), ('b', '|O')]") = Ok (DRecord [(lit "a", pl "<u2"); (lit "b", pl "|O")]).
Proof. run_test. Qed.
Definition funny : dtype := DRecord [([32; 39; 34; 13; 10; 92; 32], pl "<u2")].
Example test_funny_member_name_roundtrips : exists v, parse_literal (descr funny) = Some v /\ from_descr v = Ok funny.
Proof. eexists. split; [ vm_compute; reflexivity | vm_compute; reflexivity ]. Qed.
Example test_record_description_with_onedimensional_field_shape_declaration :
  from_descr (py "[('a', '>f8', (1,))]") = Ok (DRecord [(lit "a", DArray 1 (pl ">f8"))]).
Proof. run_test. Qed.
Example test_record_description_with_nested_record_field :
  from_descr (py "[('parent', [('child', '<i4')])]") = Ok (DRecord [(lit "parent", DRecord [(lit "child", pl "<i4")])]).
Proof. run_test. Qed.
Example test_nested_record_field_array :
  from_descr (py "[('parent', [('child', '<i4')], (2,))]") = Ok (DRecord [(lit "parent", DArray 2 (DRecord [(lit "child", pl "<i4")]))]).
Proof. run_test. Qed.
Example test_size_of_packed_data : forall c, In c machines -> exists d, from_descr (py "[('a', '<u2'), ('b', '>i4')]") = Ok d /\ num_bytes c d = Some 6.
Proof. on_machines; (eexists; split; [ vm_compute; reflexivity | vm_compute; reflexivity ]). Qed.
Example test_variable_size : forall c, In c machines -> exists d, from_descr (py "[('a', '<u2'), ('b', '|O')]") = Ok d /\ num_bytes c d = None /\ uses_pickled_array d = true.
Proof. on_machines; (eexists; split; [ vm_compute; reflexivity | split; vm_compute; reflexivity ]). Qed.
(** header.rs:536-586; [faulty] says that the text is one that parses *)
Definition faulty (s : string) : bool := match parse_literal (lit s) with Some v => failed (from_descr v) | None => false end.
Example test_errors_on_value_variants_that_cannot_be_converted : failed (from_descr (VBool false)) = true.
Proof. run_test. Qed.
Example test_errors_when_record_list_is_faulty :
  faulty "['a', 123]" = true /\ faulty "[('a',)]" = true /\ faulty "[('a', 1, 2, 3)]" = true /\ faulty "[(1, 2)]" = true.
Proof. run_test. Qed.
Example test_errors_when_shape_is_not_a_list : parse_literal (lit "1") = Some (VInteger 1) /\ failed (convert_value_to_shape (VInteger 1)) = true.
Proof. run_test. Qed.
Example test_errors_when_shape_number_is_not_a_number : parse_literal (lit "[]") = Some (VList []) /\ failed (convert_value_to_shape_integer (VList [])) = true.
Proof. run_test. Qed.
Example test_errors_when_shape_number_is_negative : parse_literal (lit "-1") = Some (VInteger (-1)) /\ failed (convert_value_to_shape_integer (VInteger (-1))) = true.
Proof. run_test. Qed.
Example test_errors_when_shape_number_is_larger_than_u64 : failed (convert_value_to_shape_integer (py "18446744073709551616")) = true
  /\ convert_value_to_shape_integer (py "18446744073709551615") = Ok (2 ^ 64 - 1).
Proof. run_test. Qed.

(** * src/read.rs *)
Example test_strides : forall c, In c machines -> strides c OrderC [2; 3; 4] = Ok [12; 4; 1] /\ strides c OrderC [] = Ok []
  /\ strides c OrderFortran [2; 3; 4] = Ok [1; 2; 6] /\ strides c OrderFortran [] = Ok [].
Proof. on_machines; run_test. Qed.
Definition ints (l : list Z) : list val := map XInt l.
Definition t_i32 : rty := RInt true W4.
Definition t_i64 : rty := RInt true W8.
Definition t_f64 : rty := RFloat F8.
(** write.rs:792-801 (a helper of the tests): what [to_bytes_1d] returns *)
Definition to_bytes_1d (c : cfg) (t : rty) (vs : list val) : bytes := sk_data (snd (to_file_1d c t vs empty_sink)).
Definition seven : list val := ints [100; 101; 102; 103; 104; 105; 106]%Z.
Definition reader_of (c : cfg) (t : rty) (bs : bytes) : option npy_reader :=
  match npy_new c (from_start bs) with (Ok f, _) => match npy_data c t f with DOk r => Some r | DErr _ => None end | _ => None end.
(** Steps of a test: each is a call, with what the test expects of it. *)
Inductive step := Total (n : N) | Left_ (n : N) | Next (v : option (res val)) | Seek (i : N) | At_ (i : N) (v : val) | Count (n : N).
Definition res_eqb (a b : option (res val)) : bool :=
  match a, b with
  | None, None => true
  | Some (Ok (XInt x)), Some (Ok (XInt y)) => (x =? y)%Z
  | _, _ => false
  end.
Fixpoint drain (c : cfg) (fuel : nat) (r : npy_reader) : N * npy_reader :=
  match fuel with
  | O => (0, r)
  | S f => match nr_next c r with (None, r') => (0, r') | (Some _, r') => let '(n, r'') := drain c f r' in (n + 1, r'') end
  end.
Fixpoint steps (c : cfg) (l : list step) (r : npy_reader) : bool :=
  match l with
  | [] => true
  | Total n :: l' => (nr_total_len r =? n) && steps c l' r
  | Left_ n :: l' => match nr_len c r with Ok m => (m =? n) && steps c l' r | _ => false end
  | Next v :: l' => let '(x, r') := nr_next c r in res_eqb x v && steps c l' r'
  | Seek i :: l' => match nr_seek_to c i r with (Ok _, r') => steps c l' r' | _ => false end
  | At_ i v :: l' => let '(x, r') := nr_read_at c i r in res_eqb (Some x) (Some (Ok v)) && steps c l' r'
  | Count n :: l' => let '(m, r') := drain c 20 r in (m =? n) && steps c l' r'
  end.
Definition test_reader (l : list step) : bool :=
  forallb (fun c => match reader_of c t_i32 (to_bytes_1d c t_i32 seven) with Some r => steps c l r | None => false end) machines.
Definition yields (z : Z) : step := Next (Some (Ok (XInt z))).
Example test_methods_after_partial_iteration : test_reader [Total 7; Left_ 7; yields 100; yields 101; Total 7; Left_ 5] = true.
Proof. run_test. Qed.
Example test_next_after_finished_iteration : test_reader [Total 7; Left_ 7; Count 7; Next None; Next None; Total 7; Left_ 0] = true.
Proof. run_test. Qed.
Example test_methods_after_seek :
  test_reader [Total 7; Left_ 7; yields 100; yields 101; Seek 4; Total 7; Left_ 3; yields 104; At_ 2 (XInt 102); Left_ 4] = true.
Proof. run_test. Qed.
Definition of_three (c : cfg) : option npy_reader := reader_of c t_i32 (to_bytes_1d c t_i32 (ints [1; 2; 3]%Z)).
Example test_boundaries : forallb (fun c => match of_three c with
  | Some r => negb (panicked (fst (nr_seek_to c 3 r))) && panicked (fst (nr_seek_to c 4 r)) && negb (panicked (fst (nr_read_at c 2 r))) && panicked (fst (nr_read_at c 3 r))
  | None => false end) machines = true.
Proof. run_test. Qed.
Example test_reusing_header : forall c, In c machines -> exists h src, npy_header_from_reader c (from_start (to_bytes_1d c t_i32 seven)) = (Ok h, src)
  /\ fst (npy_into_vec c t_i32 (npy_with_header h src)) = Ok seven.
Proof. on_machines; (eexists _, _; split; [ vm_compute; reflexivity | vm_compute; reflexivity ]). Qed.

(** * src/write.rs *)
(** Floats are bit patterns. *)
Definition f_1 : val := XFloat 0x3ff0000000000000.
Definition f_2 : val := XFloat 0x4000000000000000.
Definition f_3 : val := XFloat 0x4008000000000000.
Definition f_4 : val := XFloat 0x4010000000000000.
Definition f_5 : val := XFloat 0x4014000000000000.
Definition f_6 : val := XFloat 0x4018000000000000.
Definition f_7 : val := XFloat 0x401c000000000000.
Definition f_m1 : val := XFloat 0xbff0000000000000.
Definition f_m4 : val := XFloat 0xc010000000000000.
(** what a test reads from a file: shape, order, items *)
Definition read_back (c : cfg) (t : rty) (bs : bytes) : option (list N * order * list val) :=
  match npy_new c (from_start bs) with
  | (Ok f, _) => match npy_into_vec c t f with (Ok vs, _) => Some (h_shape (nf_header f), h_order (nf_header f), vs) | _ => None end
  | _ => None
  end.
Definition default_of (c : cfg) (t : rty) : dtype := match default_dtype c t with Some (Ok d) => d | _ => DRecord [] end.
Definition written (c : cfg) (t : rty) (o : order) (h : shape_hint) (seekable : bool) (vs : list val) (before : bytes) : res unit * sink :=
  write_file c t (default_of c t) o h seekable vs {| sk_data := before; sk_pos := lenN before; sk_fuel := None |}.
Example test_write_1d_simple : forall c, In c machines -> read_back c t_f64 (to_bytes_1d c t_f64 [f_1; f_3; f_5]) = Some ([3], OrderC, [f_1; f_3; f_5]).
Proof. on_machines; run_test. Qed.
Definition prefix : bytes := lit "lorem ipsum dolor sit amet.".
Definition suffix : bytes := lit "and they lived happily ever after.".
Definition in_the_middle (c : cfg) (h : shape_hint) (vs : list val) : bool * option (list N * order * list val) :=
  match written c t_f64 OrderC h true vs prefix with
  | (Ok _, s) =>
    let raw := sk_data (snd (sink_write suffix s)) in
    (eqb_list (takeN (lenN prefix) raw) prefix && eqb_list (dropN (lenN raw - lenN suffix) raw) suffix,
     read_back c t_f64 (dropN (lenN prefix) (takeN (lenN raw - lenN suffix) raw)))
  | _ => (false, None)
  end.
Example test_write_1d_in_the_middle : forall c, In c machines -> in_the_middle c OneDimensional [f_1; f_3; f_5] = (true, Some ([3], OrderC, [f_1; f_3; f_5])).
Proof. on_machines; run_test. Qed.
Definition six : list val := [f_1; f_3; f_5; f_m4; f_3; f_2].
Example test_write_2d_simple : forall c, In c machines ->
  read_back c t_f64 (sk_data (snd (written c t_f64 OrderC (TwoDimensional 3) true six []))) = Some ([2; 3], OrderC, six)
  /\ read_back c t_f64 (sk_data (snd (written c t_f64 OrderC (TwoDimensional 2) true six []))) = Some ([3; 2], OrderC, six).
Proof. on_machines; run_test. Qed.
Example test_write_2d_simple_fortran_order : forall c, In c machines ->
  read_back c t_f64 (sk_data (snd (written c t_f64 OrderFortran (TwoDimensional 3) true six []))) = Some ([3; 2], OrderFortran, six)
  /\ read_back c t_f64 (sk_data (snd (written c t_f64 OrderFortran (TwoDimensional 2) true six []))) = Some ([2; 3], OrderFortran, six).
Proof. on_machines; run_test. Qed.
Example test_write_2d_in_the_middle : forall c, In c machines ->
  in_the_middle c (TwoDimensional 3) [f_1; f_3; f_5; f_6; f_m1; f_4] = (true, Some ([2; 3], OrderC, [f_1; f_3; f_5; f_6; f_m1; f_4])).
Proof. on_machines; run_test. Qed.
Fixpoint contains (needle hay : bytes) : bool :=
  eqb_list (takeN (lenN needle) hay) needle || match hay with [] => false | _ :: hay' => contains needle hay' end.
Example test_implicit_finish : forallb (fun c =>
  match begin_1d c t_f64 (default_of c t_f64) OrderC empty_sink with
  | (Ok w, s) => match extend c [f_1; f_3; f_5; f_7] w s with (Ok _, w', s') => contains (lit "'shape': (4,") (sk_data (snd (drop_writer w' s'))) | _ => false end
  | _ => false end) machines = true.
Proof. run_test. Qed.
Definition nd : list val := ints [0; 1; 2; 10; 11; 12]%Z.
Example test_write_nd_simple : forall c, In c machines ->
  read_back c t_i32 (sk_data (snd (written c t_i32 OrderC (NDimensional [2; 3]) false nd []))) = Some ([2; 3], OrderC, nd).
Proof. on_machines; run_test. Qed.
Definition try_writing (c : cfg) (h : shape_hint) (seekable : bool) (l : list N) : res unit := fst (written c t_i32 OrderC h seekable (map (fun n => XInt (Z.of_N n)) l) []).
Example test_write_nd_wrong_len : forallb (fun c => failed (try_writing c (NDimensional [2; 3]) false [0; 1; 2; 10; 11])
  && ok (try_writing c (NDimensional [2; 3]) false [0; 1; 2; 10; 11; 12]) && failed (try_writing c (NDimensional [2; 3]) false [0; 1; 2; 10; 11; 12; 20])) machines = true.
Proof. run_test. Qed.
Example test_write_2d_wrong_len : forallb (fun c => failed (try_writing c (TwoDimensional 3) true [0; 1; 2; 10; 11])
  && ok (try_writing c (TwoDimensional 3) true [0; 1; 2; 10; 11; 12]) && failed (try_writing c (TwoDimensional 3) true [0; 1; 2; 10; 11; 12; 20])) machines = true.
Proof. run_test. Qed.
Definition header_only (c : cfg) (d : dtype) (before after : bytes) : bytes :=
  match write_header_only c d OrderC [2; 3] {| sk_data := before; sk_pos := lenN before; sk_fuel := None |} with
  | (Ok _, s) => sk_data (snd (sink_write after s))
  | _ => []
  end.
Example test_write_header_only_positions : forall c, In c machines -> exists f src,
  npy_new c {| cur_data := header_only c (pl "|O") (lit "ABCD") (lit "dcba"); cur_pos := 4 |} = (Ok f, src)
  /\ h_dtype (nf_header f) = pl "|O" /\ h_shape (nf_header f) = [2; 3] /\ h_n_records (nf_header f) = 6 /\ h_pickled (nf_header f) = true /\ cur_rest src = lit "dcba".
Proof. on_machines; (eexists _, _; split; [ vm_compute; reflexivity | run_test ]). Qed.
Definition funny_type : dtype := DRecord [(lit "parent", DRecord [(lit "child", pl "|O")])].
Example test_write_header_only_funny_type : forall c, In c machines -> exists f src,
  npy_new c (from_start (header_only c funny_type [] [])) = (Ok f, src)
  /\ h_dtype (nf_header f) = funny_type /\ h_shape (nf_header f) = [2; 3] /\ h_n_records (nf_header f) = 6 /\ h_pickled (nf_header f) = true.
Proof. on_machines; (eexists _, _; split; [ vm_compute; reflexivity | run_test ]). Qed.
