(** C62: what is said about a dtype that a type does not accept. *)
From Verif Require Import M_Base M_Text M_TypeStr M_IO M_Header M_Read M_Serialize M_DTypeErr M_NpyReader M_Write.
From Verif Require Import S_TypeStr S_DType S_Shape S_Header S_Elem S_Reader S_Write S_Reject S_Message P_Base P_Shape P_Header P_Elem P_Sizes P_Reject P_Message T_Elem T_Reader T_Write T_Refuse.
Open Scope N_scope.

(** The text of an error, for every error about a well-formed dtype. *)
Theorem C62_text_exact : forall m dir t d e msg, wf_dtype d -> rejects m dir t d e -> message e msg <-> msg = dterr_display e.
Proof. exact display_of_rejection. Qed.
Print Assumptions C62_text_exact.
(** [into_vec] and [NpyData::from_bytes] on a file whose dtype the type does not accept say what is wrong and read nothing; ... *)
Theorem C62_into_vec : forall c t src f src' msg, bytes_ok (cur_data src) -> npy_new c src = (Ok f, src') ->
  read_complaint (c_usize_max c) t (h_dtype (nf_header f)) msg -> npy_into_vec c t f = (Err (EData msg), nf_src f).
Proof. exact into_vec_complains. Qed.
Print Assumptions C62_into_vec.
Theorem C62_from_bytes : forall c t bs f src' msg, bytes_ok bs -> npy_new c {| cur_data := bs; cur_pos := 0 |} = (Ok f, src') ->
  read_complaint (c_usize_max c) t (h_dtype (nf_header f)) msg -> nd_from_bytes c t bs = Err (EData msg).
Proof. exact legacy_complains. Qed.
Print Assumptions C62_from_bytes.
(** ... there is something to say exactly if the file has no reader for the type. *)
Theorem C62_iff_refused : forall c t src f src', bytes_ok (cur_data src) -> npy_new c src = (Ok f, src') ->
  (exists msg, read_complaint (c_usize_max c) t (h_dtype (nf_header f)) msg) <-> ~ exists r, npy_data c t f = DOk r.
Proof. exact complaint_exists. Qed.
Print Assumptions C62_iff_refused.
(** Starting to write. *)
Theorem C62_begin : forall c t d o h s msg, wf_dtype d -> top_level d -> hint_ok h -> short_header d h ->
  write_complaint (c_usize_max c) t d msg -> sk_fuel s = None -> exists s', begin_ c t d o h (output_kind h) s = (Err (EData msg), s').
Proof. exact writer_complains. Qed.
Print Assumptions C62_begin.
(** A message about names tells all of them: two mismatches with the same message are between the same names. *)
Theorem C62_names : forall ex ac ex' ac' msg, message (WrongFields ex ac) msg -> message (WrongFields ex' ac') msg -> ex = ex' /\ ac = ac'.
Proof. exact names_recovered. Qed.
Print Assumptions C62_names.

(** The message as rustc prints it: the file has a field with a quotation mark and one with a tab, the struct has [x]. *)
Definition C62_file : bytes := npy_text "[('a""b', '<i4'), ('c\td', '<i4', (2,))]" "(1,)" [1;0;0;0; 2;0;0;0; 3;0;0;0].
Example C62_case : exists f src', npy_new le64 (from_start C62_file) = (Ok f, src')
  /\ read_complaint usize64 (RStruct [(lit "x", RBool)]) (h_dtype (nf_header f)) (lit "field names do not match (expected [""a\""b"", ""c\td""], got [""x""])")
  /\ fst (npy_into_vec le64 (RStruct [(lit "x", RBool)]) f) = Err (EData (lit "field names do not match (expected [""a\""b"", ""c\td""], got [""x""])"))
  /\ fst (npy_into_vec le64 RVecU8 f) = Err (EData (lit "type alloc::vec::Vec<u8> requires a scalar (string) dtype, not [('a""b', '<i4'), ('c	d', '<i4', (2,)), ]")).
Proof.
  do 2 eexists. split; [ vm_compute; reflexivity | ]. split; [ | split; vm_compute; reflexivity ].
  right. split; [ rewrite <- pickled_exact; vm_compute; discriminate | ].
  eexists. split; [ change usize64 with (c_usize_max le64); apply reader_rejects; vm_compute; reflexivity | ]. apply message_exact; [ exact I | vm_compute; reflexivity ].
Qed.
Example C62_write_case : write_complaint usize64 (RArrString 3) (plain Big TInt 4) (lit "cannot write type str with type-string '>i4'")
  /\ write_complaint usize64 (RArray 2 (RFixedBytes 3)) (DArray 2 (DArray 5 (plain Big TInt 4)))
       (lit "type npyz::serialize::slice::fixed_size::FixedSizeBytes<3> requires a scalar (string) dtype, not << array 5 of '>i4' >>")
  /\ write_complaint usize32 RString (plain Big TUnicodeStr (2 ^ 33)) (lit "cannot cast 8589934592 as usize")
  /\ write_complaint usize64 (RArray 2 RBool) (DArray 3 (plain Big TInt 4)) (lit "wrong array size (expected 2, got 3)")
  /\ write_complaint usize64 (RArray 2 RBool) (plain Big TInt 4) (lit "rust array types require an array dtype (got a scalar)")
  /\ short_header (plain Big TInt 4) OneDimensional.
Proof.
  repeat split; try (eexists; split; [ change usize64 with (c_usize_max le64); change usize32 with (c_usize_max le32); apply writer_rejects; vm_compute; reflexivity
    | apply message_exact; [ try exact I; wf_case | vm_compute; reflexivity ] ]).
  vm_compute; discriminate.
Qed.
