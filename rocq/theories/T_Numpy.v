(** C77: files written by NumPy. *)
From Verif Require Import M_Base M_Text M_TypeStr M_PyLit M_IO M_Header M_Read M_Serialize M_NpyReader
  S_Text S_TypeStr S_Python S_DType S_Shape S_Header S_Elem S_Dict S_Open S_Archive S_Numpy
  P_Base P_Number P_Text P_TypeStr P_Parse P_WriteHeader P_Interp P_Open P_Numpy P_Latin T_Elem T_Reader T_TestData.
Open Scope N_scope.

(** Python reads back what [repr] printed, and so does the parser, whatever characters that Python thinks printable. *)
Theorem C77_repr : forall printable v before after, py_plain v -> spaces before -> spaces after ->
  parse_literal (before ++ py_repr printable v ++ after) = Some v.
Proof. exact repr_parse. Qed.
(** NumPy's descriptions of its types are understood as what they mean, or refused. *)
Theorem C77_descr : forall nd d, np_ok nd -> from_descr (np_value nd) = Ok d <-> known nd /\ d = np_meaning nd.
Proof. intros nd d H. rewrite descr_exact. now apply np_describes. Qed.

(** Which of NumPy's files open with the dtype that NumPy meant: those of known types, in version 3 or with nothing but ASCII in the header,
    whose sizes the machine can count. *)
Theorem C77_opened : forall printable c major nd fortran shape data file,
  np_ok nd -> Forall (fun n => n < 2 ^ 64) shape -> Forall (fun b => b < 256) data -> np_file printable major nd fortran shape data file ->
  (exists h rest, run (read_and_interpret c) file = (Ok h, rest) /\ h_dtype h = np_meaning nd) <->
  known nd /\ (major = 3 \/ Forall (fun ch => ch < 128) (np_header printable nd fortran shape))
  /\ no_overflow_met c shape (np_order fortran) /\ countable c (np_meaning nd).
Proof. exact np_right. Qed.
(** Everything the header says, and where the data begin. *)
Theorem C77_header : forall printable c major nd fortran shape data file h rest,
  np_ok nd -> Forall (fun n => n < 2 ^ 64) shape -> Forall (fun b => b < 256) data ->
  major = 3 \/ Forall (fun ch => ch < 128) (np_header printable nd fortran shape) -> np_file printable major nd fortran shape data file ->
  run (read_and_interpret c) file = (Ok h, rest) <->
  known nd /\ no_overflow_met c shape (np_order fortran) /\ countable c (np_meaning nd) /\ numbers c (np_meaning nd) shape (np_order fortran) h /\ rest = data.
Proof. exact np_open. Qed.
(** The header has nothing but ASCII in it if the names have nothing else. *)
Theorem C77_ascii_names : forall printable nd fortran shape, np_ascii nd -> Forall (fun ch => ch < 128) (np_header printable nd fortran shape).
Proof. exact np_header_ascii. Qed.
(** Reading the items. *)
Theorem C77_items : forall printable c t major nd fortran shape data file vs,
  np_ok nd -> Forall (fun n => n < 2 ^ 64) shape -> Forall (fun b => b < 256) data ->
  major = 3 \/ Forall (fun ch => ch < 128) (np_header printable nd fortran shape) -> np_file printable major nd fortran shape data file ->
  known nd -> strings_fit (c_usize_max c) (np_meaning nd) ->
  (exists f cur, npy_new c {| cur_data := file; cur_pos := 0 |} = (Ok f, cur) /\ fst (npy_into_vec c t f) = Ok vs)
  <-> no_overflow_met c shape (np_order fortran) /\ sizes_fit (c_usize_max c) (np_meaning nd) /\ ~ has_object (np_meaning nd)
      /\ accepts (c_usize_max c) Reading t (np_meaning nd)
      /\ exists blocks more, data = List.concat blocks ++ more
           /\ Forall2 (fun b v => lenN b = size (np_meaning nd) /\ decode t (np_meaning nd) b = Some v) blocks vs /\ lenN vs = count shape mod 2 ^ 64.
Proof. exact np_items. Qed.
(** Types not known (titles, times without units or in multiples of units, long doubles of twelve bytes) are an error, never a panic. *)
Theorem C77_refused : forall printable c major nd fortran shape data file,
  np_ok nd -> Forall (fun n => n < 2 ^ 64) shape -> Forall (fun b => b < 256) data ->
  major = 3 \/ Forall (fun ch => ch < 128) (np_header printable nd fortran shape) -> np_file printable major nd fortran shape data file ->
  ~ known nd -> exists e, fst (run (read_and_interpret c) file) = Err e.
Proof. exact np_refused. Qed.
Theorem C77_panics : forall printable c major nd fortran shape data file,
  np_ok nd -> Forall (fun n => n < 2 ^ 64) shape -> Forall (fun b => b < 256) data ->
  major = 3 \/ Forall (fun ch => ch < 128) (np_header printable nd fortran shape) -> np_file printable major nd fortran shape data file ->
  fst (run (read_and_interpret c) file) = Panic <-> known nd /\ overflow_panic c (np_meaning nd) shape (np_order fortran).
Proof. exact np_open_panic. Qed.
(** Names beyond ASCII in versions 1 and 2, which NumPy writes in Latin-1: the file is refused or its dtype is another one. *)
Theorem C77_latin1 : forall printable c major nd fortran shape data file h rest,
  np_ok nd -> Forall (fun b => b < 256) data -> major = 1 \/ major = 2 ->
  ~ Forall (fun ch => ch < 128) (np_header printable nd fortran shape) -> np_file printable major nd fortran shape data file ->
  run (read_and_interpret c) file = (Ok h, rest) -> h_dtype h <> np_meaning nd.
Proof. exact latin_misread. Qed.
(** Padding in aligned records is a field without a name: no struct all of whose fields have names reads such records. *)
Theorem C77_padding : forall u dir fs gs f, Forall (fun x => fst x <> []) fs -> In f gs -> npf_name f = [] ->
  ~ accepts u dir (RStruct fs) (np_meaning (NpRecord gs)).
Proof. exact padding_unread. Qed.

(** * The files of /repo/test-data, made by NumPy, are such files *)
Definition any (_ : N) : bool := true.
Definition fld (name : string) (d : np_dtype) : np_field np_dtype := {| npf_title := None; npf_name := lit name; npf_type := d; npf_shape := [] |}.
Definition i4 := NpPlain false (NpInt true 4). Definition i8 := NpPlain false (NpInt true 8).
Definition f4 := NpPlain false (NpFloat 4). Definition f8 := NpPlain false (NpFloat 8).
Definition np_text_of (major : N) (d : np_dtype) (fortran : bool) (shape : list N) : bytes :=
  let txt := np_header any d fortran shape in if major =? 3 then utf8_string txt else txt.
Definition np_file_of (major : N) (d : np_dtype) (fortran : bool) (shape : list N) (pad : N) (data : bytes) : bytes :=
  let txt := np_text_of major d fortran shape in
  [0x93] ++ lit "NUMPY" ++ [major; 0] ++ le_bytes (if major =? 1 then 2%nat else 4%nat) (lenN txt + pad + 1) ++ txt ++ repeatN 32 pad ++ [10] ++ data.
Definition np_fine (major : N) (d : np_dtype) (fortran : bool) (shape : list N) (pad : N) : bool :=
  let txt := np_text_of major d fortran shape in
  ((major =? 3) || ((major =? 1) || (major =? 2)) && forallb (fun ch => ch <? 256) txt) && (lenN txt + pad + 1 <? (if major =? 1 then 65536 else 4294967296)).
Lemma np_file_made major d fortran shape pad data : np_fine major d fortran shape pad = true ->
  np_file any major d fortran shape data (np_file_of major d fortran shape pad data).
Proof.
  unfold np_fine. intros H. apply andb_true_iff in H as (H & H3).
  exists (np_text_of major d fortran shape), pad, (le_bytes (if major =? 1 then 2%nat else 4%nat) (lenN (np_text_of major d fortran shape) + pad + 1)).
  split.
  { unfold np_encoded, np_text_of in *. apply orb_true_iff in H as [ H | H ].
    - right. split; [ lia | now rewrite H ].
    - apply andb_true_iff in H as (H1 & H2). left. replace (major =? 3) with false in * by lia.
      split; [ lia | split; [ | reflexivity ] ]. apply Forall_forall. intros ch Hch. rewrite forallb_forall in H2. specialize (H2 ch Hch). lia. }
  split; [ rewrite le_bytes_len; destruct (major =? 1); reflexivity | ]. split; [ apply le_bytes_byte | ]. split; [ | reflexivity ].
  rewrite little_endian_le, le_value_le_bytes; [ reflexivity | ]. destruct (major =? 1); (eapply N.lt_le_trans; [ apply N.ltb_lt, H3 | ]); vm_compute; discriminate.
Qed.
Ltac np_easy := cbn; repeat match goal with
  | |- _ /\ _ => split
  | |- Forall _ _ => constructor
  | |- forall t, _ = Some t -> _ => let E := fresh in intros ? E; first [ discriminate | injection E as <- ]
  | |- _ => first [ discriminate | reflexivity | solve [ auto 10 | eauto ] ]
  end.
Definition abc := NpRecord [fld "a" i4; fld "b" f4; fld "c" i8].
Example C77_real_files :
  file_plain = np_file_of 1 f8 false [4] 12 (dropN 80 file_plain) /\ file_structured = np_file_of 1 abc false [2] 7 (dropN 112 file_structured)
  /\ file_c_order = np_file_of 1 i8 false [2; 3; 4] 55 (dropN 128 file_c_order) /\ file_f_order = np_file_of 1 i8 true [2; 3; 4] 56 (dropN 128 file_f_order)
  /\ file_pickle = np_file_of 1 (NpPlain false NpObject) false [2; 3] 59 (dropN 128 file_pickle)
  /\ file_unicode_ok = np_file_of 1 (NpPlain false (NpUnicode 8)) false [1] 60 (dropN 128 file_unicode_ok).
Proof. vm_compute. repeat (split; [ reflexivity | ]). reflexivity. Qed.
(** So the theorem applies to them (the other hypotheses hold as well). *)
Example C77_real_structured : np_file any 1 abc false [2] (dropN 112 file_structured) file_structured /\ np_ok abc /\ known abc
  /\ np_meaning abc = DRecord [(lit "a", plain Little TInt 4); (lit "b", plain Little TFloat 4); (lit "c", plain Little TInt 8)]
  /\ Forall (fun ch => ch < 128) (np_header any abc false [2]).
Proof.
  split; [ rewrite (proj1 (proj2 C77_real_files)) at 2; apply np_file_made; reflexivity | ].
  split; [ np_easy | ]. split; [ np_easy | ]. split; [ reflexivity | ].
  apply C77_ascii_names. np_easy.
Qed.
(** [repr] of a tuple, a nested list and strings that need quoting. *)
Example C77_repr_ex : py_repr any (VTuple [VString (lit "it's"); VInteger (-3); VList [VNone; VTuple [VBool true]]; VDict [(VString [34; 39; 92; 9; 7], VSet [VInteger 0])]])
  = lit "(""it's"", -3, [None, (True,)], {'""\'\\\t\x07': {0}})"
  /\ py_repr (fun _ => false) (VString [0xe9; 0x3b1; 0x1f600]) = lit "'\xe9\u03b1\U0001f600'".
Proof. now split. Qed.
(** Nested records, array members, titles, times. *)
Definition nested := NpRecord [fld "t" (NpPlain true (NpTime false (Some (1, Nanosecond))));
  {| npf_title := None; npf_name := lit "m"; npf_type := NpRecord [fld "x" f4; fld "" (NpPlain false (NpVoid 4))]; npf_shape := [2; 3] |}].
Example C77_nested : np_file any 2 nested false [] [] (np_file_of 2 nested false [] 5 []) /\ np_ok nested /\ known nested /\ np_ascii nested
  /\ np_header any nested false [] = lit "{'descr': [('t', '>M8[ns]'), ('m', [('x', '<f4'), ('', '|V4')], (2, 3))], 'fortran_order': False, 'shape': (), }"
  /\ np_meaning nested = DRecord [(lit "t", DPlain {| ts_endianness := Big; ts_char := TDateTime; ts_size := 8; ts_units := Some Nanosecond |});
       (lit "m", DArray 2 (DArray 3 (DRecord [(lit "x", plain Little TFloat 4); ([], plain Irrelevant TRawData 4)])))].
Proof.
  split; [ apply np_file_made; vm_compute; reflexivity | ]. split; [ np_easy | ].
  split; [ np_easy | ]. split; [ np_easy | ]. split; reflexivity.
Qed.
Definition unknown_types : list np_dtype :=
  [NpRecord [{| npf_title := Some (lit "Title"); npf_name := lit "x"; npf_type := f4; npf_shape := [] |}];
   NpPlain false (NpTime false (Some (25, Second))); NpPlain false (NpTime true None); NpPlain false (NpFloat 12); NpPlain false (NpComplex 24)].
Example C77_unknown : Forall (fun nd => np_ok nd /\ ~ known nd /\ np_ascii nd) unknown_types
  /\ map (fun nd => py_repr any (np_value nd)) unknown_types = [lit "[(('Title', 'x'), '<f4')]"; lit "'<M8[25s]'"; lit "'<m8'"; lit "'<f12'"; lit "'<c24'"]
  /\ forallb (fun nd => match run (read_and_interpret le64) (np_file_of 1 nd false [0] 0 []) with (Err (EData _), _) => true | _ => false end) unknown_types = true.
Proof.
  split; [ | split; [ reflexivity | vm_compute; reflexivity ] ].
  repeat constructor; cbn; try (intros; discriminate); try lia; try tauto; try (intros (u & E); discriminate); try (intros ((E & _) & _); discriminate);
    intros t E; injection E as <-; repeat constructor.
Qed.

(** The record of the aligned struct of a float and a double, and the struct one would write for it. *)
Example C77_padding_ex : let gs := [fld "x" f4; fld "" (NpPlain false (NpVoid 4)); fld "y" f8] in let fs := [(lit "x", RFloat F4); (lit "y", RFloat F8)] in
  Forall (fun x => fst x <> []) fs /\ In (fld "" (NpPlain false (NpVoid 4))) gs /\ py_repr any (np_value (NpRecord gs)) = lit "[('x', '<f4'), ('', '|V4'), ('y', '<f8')]".
Proof. cbv zeta. split; [ repeat constructor; discriminate | ]. split; [ right; now left | reflexivity ]. Qed.

(** * Latin-1 *)
Definition e_acute := NpRecord [fld "x" f4; {| npf_title := None; npf_name := [0xe9]; npf_type := f4; npf_shape := [] |}].
Definition a_tilde_copyright := NpRecord [fld "x" f4; {| npf_title := None; npf_name := [0xc3; 0xa9]; npf_type := f4; npf_shape := [] |}].
Lemma acute_ok : np_ok e_acute. Proof. np_easy. Qed.
Lemma tilde_ok : np_ok a_tilde_copyright. Proof. np_easy. Qed.
(** A field named with e and an acute accent makes the file unreadable; a field named by the two characters A-tilde and copyright sign
    becomes the field with the accent.  In version 3 both are right. *)
Theorem C77_latin1_refuted : exists nd file,
  np_ok nd /\ known nd /\ np_file any 1 nd false [0] [] file /\ exists e, fst (run (read_and_interpret le64) file) = Err e.
Proof.
  exists e_acute, (np_file_of 1 e_acute false [0] 0 []). split; [ exact acute_ok | ]. split; [ np_easy | ].
  split; [ apply np_file_made; vm_compute; reflexivity | ]. eexists. vm_compute. reflexivity.
Qed.
Theorem C77_misread_refuted : exists nd other file h,
  np_ok nd /\ known nd /\ np_ok other /\ np_meaning nd <> np_meaning other
  /\ np_file any 1 nd false [0] [] file /\ run (read_and_interpret le64) file = (Ok h, []) /\ h_dtype h = np_meaning other.
Proof.
  exists a_tilde_copyright, e_acute, (np_file_of 1 a_tilde_copyright false [0] 0 []). eexists. split; [ exact tilde_ok | ]. split; [ np_easy | ].
  split; [ exact acute_ok | ]. split; [ discriminate | ]. split; [ apply np_file_made; vm_compute; reflexivity | ]. split; [ vm_compute; reflexivity | reflexivity ].
Qed.
Example C77_version_3 : np_file any 3 e_acute false [0] [] (np_file_of 3 e_acute false [0] 0 [])
  /\ exists h, run (read_and_interpret le64) (np_file_of 3 e_acute false [0] 0 []) = (Ok h, []) /\ h_dtype h = np_meaning e_acute.
Proof. split; [ apply np_file_made; vm_compute; reflexivity | ]. eexists. split; [ vm_compute; reflexivity | reflexivity ]. Qed.

Print Assumptions C77_repr.
Print Assumptions C77_descr.
Print Assumptions C77_opened.
Print Assumptions C77_header.
Print Assumptions C77_ascii_names.
Print Assumptions C77_items.
Print Assumptions C77_refused.
Print Assumptions C77_panics.
Print Assumptions C77_latin1.
Print Assumptions C77_padding.
Print Assumptions C77_latin1_refuted.
Print Assumptions C77_misread_refuted.
