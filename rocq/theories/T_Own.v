(** C75: element types of the caller's own. *)
From Verif Require Import M_Base M_Text M_TypeStr M_PyLit M_IO M_Header M_Read M_Serialize M_DTypeErr M_NpyReader M_Write M_Own.
From Verif Require Import S_Text S_TypeStr S_DType S_Shape S_Header S_Elem S_Strings S_Reader S_Write S_History S_Own
  P_Base P_Header P_Elem P_Own T_Elem T_Reader.
Open Scope N_scope.

(** * Reading *)
(** A type whose reader takes, for each item, exactly the bytes the dtype says (whether it then returns a value or an error): any history of calls sees
    a list of these results with a position in it. *)
Theorem C75_reader : forall V c (de : own_deserialize V) src f src' r u items, npy_new c src = (Ok f, src') -> own_data de f = inl r ->
  de (h_dtype (nf_header f)) = inl u -> own_complete u f items -> own_addressable c f ->
  forall calls, fst (own_perform c calls r) = listed (c_usize_max c) items calls 0.
Proof. exact @own_histories. Qed.
Print Assumptions C75_reader.
(** Reading the whole array with any reader, whatever it takes: as many calls as the shape has items, each going on where the last one stopped, up to
    the first error. *)
Theorem C75_into_vec : forall V (de : own_deserialize V) f u, h_pickled (nf_header f) = false -> de (h_dtype (nf_header f)) = inl u ->
  fst (own_into_vec de f) = all_or_error (in_turn u (N.to_nat (h_n_records (nf_header f))) (cur_rest (nf_src f))).
Proof. exact @own_whole. Qed.
Print Assumptions C75_into_vec.
Theorem C75_into_vec_complete : forall V (de : own_deserialize V) f u items, h_pickled (nf_header f) = false -> de (h_dtype (nf_header f)) = inl u ->
  own_complete u f items -> fst (own_into_vec de f) = all_or_error items.
Proof. exact @own_all. Qed.
Print Assumptions C75_into_vec_complete.

(** A checked type: two bytes, the second of which has to be the complement of the first. *)
Definition checked_read : own_read N := fun input =>
  match input with
  | a :: b :: _ => (if a + b =? 255 then Ok a else Err (EData (lit "bad check byte")), 2)
  | _ => (Err EUnexpectedEof, lenN input)
  end.
Definition checked : own_deserialize N := fun d => match d with DPlain {| ts_char := TUint; ts_size := 2 |} => inl checked_read | _ => inr (lit "two bytes, please") end.
Definition C75_src : cursor := {| cur_data := 7 :: npy_text "'<u2'" "(4,)" [1;254; 2;253; 3;3; 4;251; 99]; cur_pos := 1 |}.
Definition C75_items : list (res N) := [Ok 1; Ok 2; Err (EData (lit "bad check byte")); Ok 4].
Example C75_case : exists f src' r, npy_new le64 C75_src = (Ok f, src') /\ own_data checked f = inl r /\ checked (h_dtype (nf_header f)) = inl checked_read
  /\ own_complete checked_read f C75_items /\ own_addressable le64 f /\ h_pickled (nf_header f) = false
  /\ fst (own_perform le64 [CNext; CReadAt 2; CNext; CNext; CLen; CSeek 1; CNext; CHint; CSeek 5; CReadAt 4] r)
     = [OGot (Ok 1); OGot (Err (EData (lit "bad check byte"))); OGot (Ok 4); ONoMore; ORemaining 0; OMoved; OGot (Ok 2); OBetween 2 (Some 2); OPanic; OGot Panic]
  /\ fst (own_into_vec checked f) = Err (EData (lit "bad check byte")).
Proof.
  eexists _, _, _. split; [ vm_compute; reflexivity | ]. split; [ vm_compute; reflexivity | ]. split; [ reflexivity | ]. split.
  { exists [[1;254]; [2;253]; [3;3]; [4;251]], [99]. split; [ vm_compute; reflexivity | ]. split; [ | vm_compute; reflexivity ].
    repeat (constructor; [ split; [ reflexivity | intros more; reflexivity ] | ]). constructor. }
  split; [ split; [ vm_compute; reflexivity | right; vm_compute; reflexivity ] | ]. split; [ reflexivity | ]. split; vm_compute; reflexivity.
Qed.
(** The condition is needed.  The documentation of [TypeRead::read_one] does not ask that the dtype's number of bytes be taken (src/serialize/traits.rs:110-117).
    With a reader that takes fewer, an item reached by [read_at] is not the item reached by iterating. *)
Definition lazy_read : own_read N := fun input => match input with a :: _ => (Ok a, 1) | [] => (Err EUnexpectedEof, 0) end.
Definition C75_same_item : Prop := forall V c (de : own_deserialize V) src f src' r, npy_new c src = (Ok f, src') -> own_data de f = inl r -> 1 < h_n_records (nf_header f) ->
  nth_error (fst (own_perform c [CNext; CNext] r)) 1 = nth_error (fst (own_perform c [CReadAt 1] r)) 0.
Theorem C75_any_reader_refuted : exists (de : own_deserialize N) f src' r, npy_new le64 C75_src = (Ok f, src') /\ own_data de f = inl r /\ 1 < h_n_records (nf_header f)
  /\ fst (own_perform le64 [CNext; CNext] r) = [OGot (Ok 1); OGot (Ok 254)] /\ fst (own_perform le64 [CReadAt 1] r) = [OGot (Ok 2)]
  /\ fst (own_perform le64 [CReadAt 2] r) = [OGot (Ok 3)] /\ fst (own_perform le64 [CNext; CReadAt 2] r) = [OGot (Ok 1); OGot (Ok 253)] /\ ~ C75_same_item.
Proof.
  exists (fun _ => inl lazy_read). eexists _, _, _. split; [ vm_compute; reflexivity | ]. split; [ vm_compute; reflexivity | ]. split; [ vm_compute; reflexivity | ].
  split; [ vm_compute; reflexivity | ]. split; [ vm_compute; reflexivity | ]. split; [ vm_compute; reflexivity | ]. split; [ vm_compute; reflexivity | ]. intros H.
  assert (K : exists f src', npy_new le64 C75_src = (Ok f, src')) by (eexists _, _; vm_compute; reflexivity). destruct K as (f & src' & Hf).
  assert (K : exists r, own_data (fun _ => inl lazy_read) f = inl r /\ 1 < h_n_records (nf_header f)
    /\ fst (own_perform le64 [CNext; CNext] r) = [OGot (Ok 1); OGot (Ok 254)] /\ fst (own_perform le64 [CReadAt 1] r) = [OGot (Ok 2)]).
  { vm_compute in Hf. apply pair_inj in Hf as (Hf & _). apply Ok_inj in Hf. subst f. eexists. split; [ vm_compute; reflexivity | ]. split; [ vm_compute; reflexivity | ]. split; vm_compute; reflexivity. }
  destruct K as (r & Hr & Hn & H1 & H2). specialize (H N le64 _ _ f src' r Hf Hr Hn). rewrite H1, H2 in H. discriminate H.
Qed.
Print Assumptions C75_any_reader_refuted.

(** * Writing *)
(** Whatever the type's writer puts out for an item is in the file as it is; the header is that of the items pushed.  If the number of items does not fit the
    shape there is an error, or a panic for rows of length 0. *)
Theorem C75_writer : forall V c (se : own_serialize V) u d o h vs blocks s, wf_dtype d -> top_level d -> se d = inl u ->
  Forall2 (fun v b => emits (u v) b (Ok tt)) vs blocks -> lenN vs < 2 ^ 64 -> hint_ok h -> short_header d h -> sk_fuel s = None ->
  match final_shape h o (lenN vs) with
  | Some shape => exists s' hdr, own_write_file c se d o h (output_kind h) vs s = (Ok tt, s')
      /\ placed (sk_data s) (sk_pos s) (hdr ++ List.concat blocks) (sk_data s') /\ file_with d o shape (hdr ++ List.concat blocks) (List.concat blocks)
  | None => exists r s', own_write_file c se d o h (output_kind h) vs s = (r, s') /\ match h with TwoDimensional 0 => r = Panic | _ => exists e, r = Err e end
  end.
Proof. exact @own_written. Qed.
Print Assumptions C75_writer.
(** If a writer of one type puts out blocks of the dtype's size and a reader of another takes them and says [ws], that is what is read back, on any machine. *)
Theorem C75_round_trip : forall V W c c' (se : own_serialize V) (de : own_deserialize W) uw ur d o h shape vs blocks ws s, wf_dtype d -> top_level d ->
  se d = inl uw -> de d = inl ur -> Forall2 (fun v b => emits (uw v) b (Ok tt)) vs blocks -> Forall2 (fun b w => lenN b = size d /\ answers ur b (Ok w)) blocks ws ->
  lenN vs < 2 ^ 64 -> hint_ok h -> short_header d h -> sk_fuel s = None -> final_shape h o (lenN vs) = Some shape -> (exists n, num_bytes c' d = Some n) ->
  exists s', own_write_file c se d o h (output_kind h) vs s = (Ok tt, s')
  /\ exists f src', npy_new c' {| cur_data := sk_data s'; cur_pos := sk_pos s |} = (Ok f, src') /\ h_dtype (nf_header f) = d /\ h_shape (nf_header f) = shape
     /\ h_order (nf_header f) = o /\ own_complete ur f (map Ok ws) /\ fst (own_into_vec de f) = Ok ws.
Proof. exact @own_round_trip. Qed.
Print Assumptions C75_round_trip.

(** * Structs with such fields *)
Theorem C75_derived_reads : forall V W (make : list V -> W) (ps : list (part V)), Forall readable_part ps ->
  exists u, derived_deserialize make (map (fun p => (p_name p, p_de p)) ps) (record_of ps) = inl u
  /\ answers u (List.concat (map p_block ps)) (Ok (make (map p_value ps))).
Proof. exact @derived_read. Qed.
Print Assumptions C75_derived_reads.
Theorem C75_derived_writes : forall V W (take : W -> list V) w (ps : list (part V)), Forall writable_part ps -> take w = map p_value ps ->
  exists u, derived_serialize take (map (fun p => (p_name p, p_se p)) ps) (record_of ps) = inl u /\ emits (u w) (List.concat (map p_block ps)) (Ok tt).
Proof. exact @derived_written. Qed.
Print Assumptions C75_derived_writes.
(** A field that fails stops the item: what was read or written up to and including it, and its error. *)
Theorem C75_derived_stops_reading : forall V W (make : list V -> W) (ps : list (part V)) p qs e, Forall readable_part ps ->
  Forall (fun q => p_de q (p_dtype q) = inl (p_reader q)) (p :: qs) -> answers (p_reader p) (p_block p) (Err e) ->
  exists u, derived_deserialize make (map (fun p => (p_name p, p_de p)) (ps ++ p :: qs)) (record_of (ps ++ p :: qs)) = inl u
  /\ answers u (List.concat (map p_block ps) ++ p_block p) (Err e).
Proof. exact @derived_read_stop. Qed.
Print Assumptions C75_derived_stops_reading.
Theorem C75_derived_stops_writing : forall V W (take : W -> list V) w (ps : list (part V)) p qs e, Forall writable_part ps ->
  Forall (fun q => p_se q (p_dtype q) = inl (p_writer q)) (p :: qs) -> emits (p_writer p (p_value p)) (p_block p) (Err e) -> take w = map p_value (ps ++ p :: qs) ->
  exists u, derived_serialize take (map (fun p => (p_name p, p_se p)) (ps ++ p :: qs)) (record_of (ps ++ p :: qs)) = inl u
  /\ emits (u w) (List.concat (map p_block ps) ++ p_block p) (Err e).
Proof. exact @derived_written_stop. Qed.
Print Assumptions C75_derived_stops_writing.
(** A field whose type refuses its dtype: the first such decides what is said. *)
Theorem C75_derived_passes_on : forall V W (make : list V -> W) (take : W -> list V) (ps : list (part V)) p qs msg,
  (Forall (fun q => p_de q (p_dtype q) = inl (p_reader q)) ps -> p_de p (p_dtype p) = inr msg ->
   derived_deserialize make (map (fun p => (p_name p, p_de p)) (ps ++ p :: qs)) (record_of (ps ++ p :: qs)) = inr msg)
  /\ (Forall (fun q => p_se q (p_dtype q) = inl (p_writer q)) ps -> p_se p (p_dtype p) = inr msg ->
   derived_serialize take (map (fun p => (p_name p, p_se p)) (ps ++ p :: qs)) (record_of (ps ++ p :: qs)) = inr msg).
Proof. exact @derived_field_refused. Qed.
Print Assumptions C75_derived_passes_on.
Theorem C75_derived_size : forall V (ps : list (part V)), Forall (fun p => lenN (p_block p) = size (p_dtype p)) ps ->
  lenN (List.concat (map p_block ps)) = size (record_of ps).
Proof. exact @parts_size. Qed.
Print Assumptions C75_derived_size.
(** Only records with the fields of the struct, in its order, are accepted. *)
Theorem C75_derived_refuses : forall V W (make : list V -> W) (take : W -> list V) fs gs d, (forall rfs, d = DRecord rfs -> map fst rfs <> map fst fs) -> map fst gs = map fst fs ->
  (exists msg, derived_deserialize make fs d = inr msg) /\ exists msg, derived_serialize take gs d = inr msg.
Proof. exact @derived_refused. Qed.
Print Assumptions C75_derived_refuses.

(** * The types npyz provides are a case of this *)
Theorem C75_same_reading : forall c t f calls, match npy_data c t f with
  | DOk r => exists r', own_data (provided_deserialize c t) f = inl r' /\ map tell (fst (own_perform c calls r')) = fst (perform c calls r)
  | DErr e => own_data (provided_deserialize c t) f = inr (dterr_display e)
  end.
Proof. exact same_reading. Qed.
Print Assumptions C75_same_reading.
Theorem C75_same_into_vec : forall c t f, own_into_vec (provided_deserialize c t) f = npy_into_vec c t f.
Proof. exact same_into_vec. Qed.
Print Assumptions C75_same_into_vec.
Theorem C75_same_writing : forall c t d o h seekable vs s, own_write_file c (provided_serialize c t) d o h seekable vs s = write_file c t d o h seekable vs s.
Proof. exact same_writing. Qed.
Print Assumptions C75_same_writing.

(** * Vector5 of tests/roundtrip.rs *)
Theorem C75_vector5 : forall zs, lenN zs = 5 -> Forall (fun z => (- 2 ^ 31 <= z < 2 ^ 31)%Z) zs ->
  answers vector5_read (List.concat (map i32_bytes zs)) (Ok (XSeq (map XInt zs)))
  /\ emits (vector5_write (XSeq (map XInt zs))) (List.concat (map i32_bytes zs)) (Ok tt)
  /\ lenN (List.concat (map i32_bytes zs)) = size vector5_dtype.
Proof. exact (fun zs Hn Hz => conj (vector5_answers zs Hn Hz) (conj (vector5_emits zs Hn) (vector5_len zs Hn))). Qed.
Print Assumptions C75_vector5.
Theorem C75_vector5_only : forall d, ((exists u, vector5_deserialize d = inl u) <-> d = vector5_dtype) /\ ((exists u, vector5_serialize d = inl u) <-> d = vector5_dtype).
Proof.
  intros d. unfold vector5_deserialize, vector5_serialize. rewrite <- vector5_only. destruct (is_vector5 d); split; split; intros H; eauto; try (destruct H; discriminate); discriminate H.
Qed.
Print Assumptions C75_vector5_only.
(** Every other type is refused with the example's own message. *)
Theorem C75_vector5_refused : forall d, d <> vector5_dtype ->
  vector5_deserialize d = inr (lit "Vector5 only supports '<i4' format!") /\ vector5_serialize d = inr (lit "Vector5 only supports '<i4' format!").
Proof.
  intros d H. unfold vector5_deserialize, vector5_serialize. rewrite <- vector5_only in H. destruct (is_vector5 d); [ now destruct H | now split ].
Qed.
Print Assumptions C75_vector5_refused.

(** The types npyz provides, as fields. *)
Theorem C75_provided_field : forall c rd tw b v, run (read_one c rd) b = (Ok v, []) -> write_one c tw v = (b, Ok tt) ->
  answers (provided_read c rd) b (Ok v) /\ emits (provided_write c tw v) b (Ok tt).
Proof. exact (fun c rd tw b v Hr Hw => conj (provided_answers c rd b v Hr) (provided_emits c tw b v Hw)). Qed.
Print Assumptions C75_provided_field.

(** A struct with a big-endian [i16] and a Vector5: its fields as parts; the struct is the list of its values. *)
Definition C75_parts (n : Z) (block : bytes) (zs : list Z) : list (part val) :=
  [ {| p_name := lit "n"; p_de := provided_deserialize le64 (RInt true W2); p_se := provided_serialize le64 (RInt true W2); p_dtype := plain Big TInt 2;
       p_reader := provided_read le64 (RdPrim (PInt true W2) true); p_writer := provided_write le64 (WrPrim (PInt true W2) true); p_value := XInt n; p_block := block |};
    {| p_name := lit "vec"; p_de := vector5_deserialize; p_se := vector5_serialize; p_dtype := vector5_dtype;
       p_reader := vector5_read; p_writer := vector5_write; p_value := XSeq (map XInt zs); p_block := List.concat (map i32_bytes zs) |} ].
Definition C75_a := C75_parts 258 [1; 2] [1; -1; 256; 2147483647; -2147483648]%Z.
Definition C75_b := C75_parts (-2) [255; 254] [0; 0; 0; 0; 65536]%Z.
Example C75_struct : Forall readable_part C75_a /\ Forall writable_part C75_a /\ Forall readable_part C75_b /\ Forall writable_part C75_b
  /\ Forall (fun p => lenN (p_block p) = size (p_dtype p)) C75_a /\ wf_dtype (record_of C75_a) /\ top_level (record_of C75_a) /\ short_header (record_of C75_a) OneDimensional
  /\ List.concat (map p_block C75_a) = [1;2; 1;0;0;0; 255;255;255;255; 0;1;0;0; 255;255;255;127; 0;0;0;128]
  /\ exists s f src', own_write_file le64 (derived_serialize (fun l => l) (map (fun p => (p_name p, p_se p)) C75_a)) (record_of C75_a) OrderC OneDimensional true
       [map p_value C75_a; map p_value C75_b] empty_sink = (Ok tt, s)
     /\ npy_new le64 (from_start (sk_data s)) = (Ok f, src') /\ h_shape (nf_header f) = [2] /\ h_dtype (nf_header f) = record_of C75_a
     /\ fst (own_into_vec (derived_deserialize (fun l => l) (map (fun p => (p_name p, p_de p)) C75_a)) f) = Ok [map p_value C75_a; map p_value C75_b].
Proof.
  split; [ | split; [ | split; [ | split ] ] ].
  1-4: constructor; [ split; [ reflexivity | ] | constructor; [ split; [ reflexivity | ] | constructor ] ].
  1-8: cbn [p_reader p_writer p_block p_value].
  all: try (apply provided_answers; vm_compute; reflexivity); try (apply provided_emits; vm_compute; reflexivity).
  all: try (apply vector5_answers; [ reflexivity | repeat (constructor; [ lia | ]); constructor ]); try (apply vector5_emits; reflexivity).
  split; [ constructor; [ reflexivity | constructor; [ reflexivity | constructor ] ] | ]. split; [ wf_case | ]. split; [ exact I | ]. split; [ vm_compute; discriminate | ]. split; [ vm_compute; reflexivity | ].
  eexists _, _, _. split; [ vm_compute; reflexivity | ]. split; [ vm_compute; reflexivity | ]. split; [ vm_compute; reflexivity | ]. split; vm_compute; reflexivity.
Qed.
(** Vector5 itself is not the element type of a file: its dtype can only be that of a field. *)
Example C75_vector5_alone : fst (own_write_file le64 vector5_serialize vector5_dtype OrderC OneDimensional true [] empty_sink) = Panic.
Proof. vm_compute. reflexivity. Qed.
