(** C51: which error a dtype gets; C52: what a refused writer leaves behind; C53: [to_file_1d]; C54: header and data from different places. *)
From Verif Require Import M_Base M_Text M_TypeStr M_IO M_Header M_Read M_Serialize M_NpyReader M_Write.
From Verif Require Import S_TypeStr S_DType S_Shape S_Header S_Elem S_Reader S_Write S_Reject P_Base P_Shape P_Header P_Elem P_Strings P_Writer P_WriteFile P_Reject P_Refuse P_WithHeader
  T_Elem T_Reader T_Write.
Open Scope N_scope.

(** C51: the error of [reader] and of [writer] is the one that describes the first thing wrong with the dtype. *)
Theorem C51_reader_error : forall c t d e, reader c t d = DErr e <-> rejects (c_usize_max c) Reading t d e.
Proof. exact reader_rejects. Qed.
Print Assumptions C51_reader_error.
Theorem C51_writer_error : forall c t d e, writer c t d = DErr e <-> rejects (c_usize_max c) Writing t d e.
Proof. exact writer_rejects. Qed.
Print Assumptions C51_writer_error.
(** There is something wrong with a dtype exactly if it is not accepted, and then only one thing is the first. *)
Lemma rejects_or_accepts c dir t d : (exists e, rejects (c_usize_max c) dir t d e) <-> ~ accepts (c_usize_max c) dir t d.
Proof.
  destruct dir.
  - rewrite <- (reader_accepts c t d). split.
    + intros (e & H) (r & Hr). apply (reader_rejects c t d e) in H. congruence.
    + intros H. destruct (reader c t d) as [ r | e ] eqn:E; [ elim H; eauto | ]. exists e. now apply reader_rejects.
  - rewrite <- (writer_accepts c t d). split.
    + intros (e & H) (r & Hr). apply (writer_rejects c t d e) in H. congruence.
    + intros H. destruct (writer c t d) as [ r | e ] eqn:E; [ elim H; eauto | ]. exists e. now apply writer_rejects.
Qed.
Lemma one_error m dir t d e e' : rejects m dir t d e -> rejects m dir t d e' -> e = e'.
Proof.
  set (c := {| c_big := false; c_usize_max := m; c_ovf_panics := false |}). change m with (c_usize_max c). destruct dir.
  - rewrite <- !reader_rejects. congruence.
  - rewrite <- !writer_rejects. congruence.
Qed.
Theorem C51_wrong_iff_refused : forall c dir t d, (exists e, rejects (c_usize_max c) dir t d e) <-> ~ accepts (c_usize_max c) dir t d.
Proof. exact rejects_or_accepts. Qed.
Print Assumptions C51_wrong_iff_refused.
Theorem C51_one_error : forall m dir t d e e', rejects m dir t d e -> rejects m dir t d e' -> e = e'.
Proof. exact one_error. Qed.
Print Assumptions C51_one_error.
(** [NpyFile::data] on any open file: object arrays are reported first. *)
Theorem C51_data_error : forall c t src f src' e, npy_new c src = (Ok f, src') ->
  npy_data c t f = DErr e <->
  (has_object (h_dtype (nf_header f)) /\ e = RequiresPickle)
  \/ (~ has_object (h_dtype (nf_header f)) /\ rejects (c_usize_max c) Reading t (h_dtype (nf_header f)) e).
Proof. exact data_rejects. Qed.
Print Assumptions C51_data_error.
(** The second field is the wrong one, inside an array; the string is too wide for a 32-bit machine; a wrong code of a wide string. *)
Definition C51_bad : dtype := DRecord [(lit "id", plain Big TUint 2); (lit "name", plain Big TUnicodeStr 3); (lit "pos", DArray 2 (plain Big TFloat 8))].
Example C51_case :
  rejects usize64 Reading case_type C51_bad (BadScalar {| ts_endianness := Big; ts_char := TFloat; ts_size := 8; ts_units := None |} (lit "num_complex::Complex<f32>") (lit "read"))
  /\ rejects usize32 Reading RString (plain Big TUnicodeStr (2 ^ 33)) (UsizeOverflow (2 ^ 33))
  /\ rejects usize32 Reading RString (plain Big TInt (2 ^ 33)) (UsizeOverflow (2 ^ 33))
  /\ rejects usize32 Writing RString (plain Big TInt (2 ^ 33)) (BadScalar {| ts_endianness := Big; ts_char := TInt; ts_size := 2 ^ 33; ts_units := None |} (lit "str") (lit "write"))
  /\ rejects usize64 Reading (RArray 2 RBool) (DArray 3 (plain Big TFloat 8)) (WrongArrayLen 2 3).
Proof.
  split; [ change usize64 with (c_usize_max le64); now apply reader_rejects | ].
  split; [ change usize32 with (c_usize_max le32); now apply reader_rejects | ].
  split; [ change usize32 with (c_usize_max le32); now apply reader_rejects | ].
  split; [ change usize32 with (c_usize_max le32); now apply writer_rejects | ].
  change usize64 with (c_usize_max le64); now apply reader_rejects.
Qed.
Definition C51_src : cursor := from_start (npy_text "[('a', '|O'), ('b', '<i4')]" "()" []).
Example C51_data_case : exists f src', npy_new le64 C51_src = (Ok f, src') /\ npy_data le64 RBool f = DErr RequiresPickle.
Proof. do 2 eexists. split; vm_compute; reflexivity. Qed.

(** C52: [begin_nd] with a dtype the type does not accept is an error, but the header has been written: what is at the old position is
    the complete header of a file of that dtype and shape. *)
Theorem C52_fixed_leaves_header : forall c t d o shape s e, wf_dtype d -> top_level d -> rejects (c_usize_max c) Writing t d e ->
  Forall (fun n => n < 2 ^ 64) shape -> no_overflow shape -> short_header d (NDimensional shape) -> sk_fuel s = None ->
  exists e' s' hdr, begin_nd c t d o shape s = (Err e', s') /\ placed (sk_data s) (sk_pos s) hdr (sk_data s') /\ file_with d o shape hdr [].
Proof. exact refused_fixed. Qed.
Print Assumptions C52_fixed_leaves_header.
(** If the shape has no items, that is a whole file, which every type that does accept the dtype reads as empty ... *)
Theorem C52_empty_complete : forall c c' t t' d o shape s e r s', wf_dtype d -> top_level d -> rejects (c_usize_max c) Writing t d e ->
  Forall (fun n => n < 2 ^ 64) shape -> no_overflow shape -> short_header d (NDimensional shape) -> sk_fuel s = None ->
  begin_nd c t d o shape s = (r, s') -> count shape = 0 -> accepts (c_usize_max c') Reading t' d -> sizes_fit (c_usize_max c') d ->
  (exists e', r = Err e') /\ reads_as c' t' (sk_data s') (sk_pos s) d o shape [].
Proof. exact refused_complete. Qed.
Print Assumptions C52_empty_complete.
(** ... and otherwise, at the end of a stream, no type reads anything from it (unless items take no space). *)
Theorem C52_otherwise_unreadable : forall c c' t t' d o shape s e r s' vs, wf_dtype d -> top_level d -> rejects (c_usize_max c) Writing t d e ->
  Forall (fun n => n < 2 ^ 64) shape -> no_overflow shape -> short_header d (NDimensional shape) -> sk_fuel s = None -> sk_pos s = lenN (sk_data s) ->
  begin_nd c t d o shape s = (r, s') -> reads_as c' t' (sk_data s') (sk_pos s) d o shape vs -> (exists n, num_bytes c' d = Some n) ->
  count shape = 0 \/ size d = 0.
Proof. exact refused_incomplete. Qed.
Print Assumptions C52_otherwise_unreadable.
(** [begin_1d] and [begin_2d] leave a well-formed header that no machine opens. *)
Theorem C52_growing_unopenable : forall c t d o h s e, (exists k, h = TwoDimensional k /\ k < 2 ^ 64) \/ h = OneDimensional ->
  wf_dtype d -> top_level d -> rejects (c_usize_max c) Writing t d e -> short_header d h -> sk_fuel s = None ->
  exists e' s' hdr major txt, begin_ c t d o h true s = (Err e', s') /\ placed (sk_data s) (sk_pos s) hdr (sk_data s') /\ npy_layout hdr major 0 txt
  /\ forall c', exists e'' src, npy_new c' {| cur_data := sk_data s'; cur_pos := sk_pos s |} = (Err e'', src).
Proof. exact refused_automatic. Qed.
Print Assumptions C52_growing_unopenable.
(** So "an error leaves the output as it was" is false. *)
Theorem C52_untouched_refuted : exists c t d o shape s e s', begin_nd c t d o shape s = (Err e, s') /\ sk_data s' <> sk_data s
  /\ reads_as c (RInt true W4) (sk_data s') (sk_pos s) d o shape [].
Proof.
  exists le64, (RInt true W8), (plain Little TInt 4), OrderC, [0], empty_sink. do 2 eexists. split; [ vm_compute; reflexivity | ].
  split; [ discriminate | ]. do 2 eexists. split; [ vm_compute; reflexivity | ]. repeat (split; [ reflexivity | ]). vm_compute. reflexivity.
Qed.
Print Assumptions C52_untouched_refuted.
Example C52_case : rejects usize64 Writing case_type C51_bad (BadScalar {| ts_endianness := Big; ts_char := TFloat; ts_size := 8; ts_units := None |} (lit "num_complex::Complex<f32>") (lit "write"))
  /\ wf_dtype C51_bad /\ short_header C51_bad (NDimensional [2; 3]) /\ short_header C51_bad OneDimensional /\ no_overflow [2; 3]
  /\ (exists e s', begin_nd le64 case_type C51_bad OrderC [2; 3] W_sink = (Err e, s') /\ lenN (sk_data s') = 130)
  /\ exists e s', begin_1d le64 case_type C51_bad OrderC W_sink = (Err e, s') /\ lenN (sk_data s') = 194.
Proof.
  split; [ change usize64 with (c_usize_max le64); now apply writer_rejects | ]. split; [ wf_case | ]. split; [ vm_compute; discriminate | ]. split; [ vm_compute; discriminate | ].
  split; [ apply count_pos_no_overflow; split; reflexivity | ]. split; do 2 eexists; split; vm_compute; reflexivity.
Qed.

(** C53: [to_file_1d] on an empty file stores any sequence of values of a type with a default dtype, and it reads back, on any machine that
    accepts that dtype; [t] is not itself an array. *)
Theorem C53_to_file : forall c c' t vs d, wf_cfg c -> has_default (c_usize_max c) t -> (forall n t', t <> RArray n t') ->
  Forall (has_type t) vs -> Forall units_ok vs -> lenN vs < 2 ^ 64 -> default_dtype c t = Some (Ok d) -> short_header d OneDimensional ->
  accepts (c_usize_max c') Reading t d -> sizes_fit (c_usize_max c') d -> strings_fit (c_usize_max c') d ->
  exists s', to_file_1d c t vs empty_sink = (Ok tt, s')
  /\ reads_as c' t (sk_data s') 0 d OrderC [lenN vs] (map (read_back t d) vs)
  /\ (Forall (survives t d) vs -> reads_as c' t (sk_data s') 0 d OrderC [lenN vs] vs).
Proof. exact to_file_ok. Qed.
Print Assumptions C53_to_file.
(** The only other types with a default dtype are arrays, and for them it panics, always. *)
Theorem C53_array_panics : forall c n t vs s, default_dtype c (RArray n t) <> None -> sk_fuel s = None -> to_file_1d c (RArray n t) vs s = (Panic, s).
Proof. exact to_file_array. Qed.
Print Assumptions C53_array_panics.
Definition C53_vals : list val := [XRec [XStr [97; 98]; XSeq [XRec [XFloat 1]; XRec [XFloat 2]]]; XRec [XStr []; XSeq [XRec [XFloat 3]; XRec [XFloat 4]]]].
Example C53_case : exists d, wf_cfg be64 /\ has_default usize64 C44_type /\ Forall (has_type C44_type) C53_vals /\ Forall units_ok C53_vals
  /\ default_dtype be64 C44_type = Some (Ok d) /\ short_header d OneDimensional /\ accepts usize32 Reading C44_type d /\ sizes_fit usize32 d /\ strings_fit usize32 d
  /\ Forall (survives C44_type d) C53_vals.
Proof.
  eexists. split; [ now left | ]. split; [ exact (proj1 C46_case) | ].
  split; [ repeat constructor; cbn; try lia; repeat split; repeat constructor; try lia | ].
  split; [ repeat constructor | ]. split; [ reflexivity | ]. split; [ vm_compute; discriminate | ].
  split; [ change usize32 with (c_usize_max le32); apply reader_accepts; eexists; reflexivity | ]. split; [ cbn; repeat split; solve [ reflexivity | discriminate | auto ] | ]. split; [ cbn; repeat split; discriminate | ].
  repeat constructor; cbn; repeat split; try (apply no_final_zero_last; discriminate); repeat constructor.
Qed.
Example C53_array_case : default_dtype be64 (RArray 2 RBool) <> None.
Proof. discriminate. Qed.

(** C54: [new] reads the header and goes on with the same stream ... *)
Theorem C54_new : forall c src, npy_new c src =
  match npy_header_from_reader c src with
  | (Ok h, src') => (Ok (npy_with_header h src'), src')
  | (Err e, src') => (Err e, src')
  | (Panic, src') => (Panic, src')
  end.
Proof. exact header_then_data. Qed.
Print Assumptions C54_new.
(** ... while with [with_header] the data comes from any stream at any position: reading the array gives these items exactly if that
    stream holds them from there, ... *)
Theorem C54_whole_array : forall c t src h src', bytes_ok (cur_data src) -> npy_header_from_reader c src = (Ok h, src') ->
  forall src2 items, strings_fit (c_usize_max c) (h_dtype h) -> bytes_ok (cur_data src2) ->
  fst (npy_into_vec c t (npy_with_header h src2)) = Ok items <->
  ~ has_object (h_dtype h) /\ accepts (c_usize_max c) Reading t (h_dtype h) /\ complete_file t (npy_with_header h src2) (map Some items).
Proof. exact elsewhere_exact. Qed.
Print Assumptions C54_whole_array.
(** ... and any history of calls sees the items as a list. *)
Theorem C54_histories : forall c t src h src', bytes_ok (cur_data src) -> npy_header_from_reader c src = (Ok h, src') ->
  forall src2 r items, npy_data c t (npy_with_header h src2) = DOk r -> complete_file t (npy_with_header h src2) (map Some items) ->
  addressable c (npy_with_header h src2) -> forall calls, actual c calls r = ideal (c_usize_max c) (map Some items) calls 0.
Proof. exact elsewhere_histories. Qed.
Print Assumptions C54_histories.
Definition C54_data : cursor := {| cur_data := [9; 9; 9; 0;7; 0;8; 0;9; 255;255; 1]; cur_pos := 3 |}.
Example C54_case : exists h src' r, bytes_ok (cur_data C29_src) /\ bytes_ok (cur_data C54_data) /\ npy_header_from_reader le64 C29_src = (Ok h, src')
  /\ npy_data le64 (RInt true W2) (npy_with_header h C54_data) = DOk r
  /\ complete_file (RInt true W2) (npy_with_header h C54_data) (map Some [XInt 7; XInt 8; XInt 9; XInt (-1)]) /\ addressable le64 (npy_with_header h C54_data)
  /\ actual le64 [CNext; CReadAt 3; CSeek 0; CNext] r = [OItem (XInt 7); OItem (XInt (-1)); ODone; OItem (XInt 7)].
Proof.
  eexists _, _, _. split; [ apply bytes_ok_dec; vm_compute; reflexivity | ]. split; [ apply bytes_ok_dec; vm_compute; reflexivity | ].
  split; [ vm_compute; reflexivity | ]. split; [ vm_compute; reflexivity | ].
  split; [ | split; [ | vm_compute; reflexivity ] ].
  - exists [[0;7]; [0;8]; [0;9]; [255;255]], [1]. split; [ vm_compute; reflexivity | ]. split; [ | vm_compute; reflexivity ].
    repeat (constructor; [ split; [ reflexivity | split; [ apply bytes_ok_dec; reflexivity | vm_compute; reflexivity ] ] | ]). constructor.
  - split; [ exact I | split; [ vm_compute; reflexivity | right; vm_compute; reflexivity ] ].
Qed.
