(** C07 to C13, C32, C33, C47: writing files. *)
From Verif Require Import M_Base M_Text M_TypeStr M_PyLit M_IO M_Header M_Read M_Serialize M_NpyReader M_Write.
From Verif Require Import S_TypeStr S_DType S_Shape S_Header S_Elem S_Strings S_Reader S_Write
  P_Base P_Text P_Header P_Sink P_Shape P_WriteHeader P_Writer P_WriteFile P_Session P_Whole P_Number P_Elem P_Codec P_Strings P_ElemT T_Elem T_Reader.
Open Scope N_scope.

(** * C07: fixed shapes *)
(** Whenever a whole file was written (to any output, from any position), every machine [c'] that can handle the dtype reads from that
    position the same header and the same values ([read_back]: strings lose trailing NULs; [survives]: there are none to lose). *)
Theorem C07_round_trip : forall c c' t d o shape vs s s', wf_dtype d -> Forall (has_type t) vs -> lenN vs < 2 ^ 64 ->
  Forall (fun n => n < 2 ^ 64) shape -> no_overflow shape ->
  write_file c t d o (NDimensional shape) false vs s = (Ok tt, s') ->
  accepts (c_usize_max c') Reading t d -> sizes_fit (c_usize_max c') d -> strings_fit (c_usize_max c') d ->
  lenN vs = count shape /\ reads_as c' t (sk_data s') (sk_pos s) d o shape (map (read_back t d) vs)
  /\ (Forall (survives t d) vs -> reads_as c' t (sk_data s') (sk_pos s) d o shape vs).
Proof. exact fixed_round_trip. Qed.
Print Assumptions C07_round_trip.
(** And writing does succeed on an output that does not fail. *)
Theorem C07_succeeds : forall c t d o shape vs s, wf_dtype d -> strings_fit (c_usize_max c) d -> top_level d -> accepts (c_usize_max c) Writing t d -> Forall (has_type t) vs ->
  Forall (fun v => exists b, encode t d v = Some b) vs -> lenN vs < 2 ^ 64 ->
  Forall (fun n => n < 2 ^ 64) shape -> no_overflow shape -> lenN vs = count shape -> short_header d (NDimensional shape) -> sk_fuel s = None ->
  exists s', write_file c t d o (NDimensional shape) false vs s = (Ok tt, s').
Proof. exact fixed_succeeds. Qed.
Print Assumptions C07_succeeds.

(** The start: a stream with something in it, at a position inside. *)
Definition W_sink : sink := {| sk_data := [1; 2; 3; 4; 5]; sk_pos := 2; sk_fuel := None |}.
Definition W_vals : list val := [case_val; XRec [XInt 7; XStr (lit "a"); XSeq [XComplex 5 6; XComplex 7 8]]].
Example W_vals_ok : Forall (has_type case_type) W_vals /\ Forall (survives case_type case_dtype) W_vals
  /\ Forall (fun v => exists b, encode case_type case_dtype v = Some b) W_vals /\ sizes_fit usize64 case_dtype /\ sizes_fit usize32 case_dtype
  /\ strings_fit usize64 case_dtype /\ strings_fit usize32 case_dtype.
Proof.
  split; [ repeat constructor; cbn; repeat split; try lia; repeat constructor; reflexivity | ].
  assert (Hz : no_final_zero (lit "a")) by now apply no_final_zero_last. assert (Hz' : no_final_zero [97; 0x1F600]) by now apply no_final_zero_last.
  split; [ unfold W_vals; constructor; [ cbn; repeat split; try assumption; repeat constructor | constructor; [ cbn; repeat split; try assumption; repeat constructor | constructor ] ] | ].
  split; [ repeat constructor; eexists; vm_compute; reflexivity | ]. split; [ | split; [ | split ] ]; cbn; repeat split; try (vm_compute; discriminate).
Qed.
Example C07_case : exists s', write_file le64 case_type case_dtype OrderFortran (NDimensional [1; 2]) false W_vals W_sink = (Ok tt, s')
  /\ takeN 2 (sk_data s') = [1; 2] /\ lenN (sk_data s') = 2 + 128 + 60 /\ sk_pos s' = 190
  /\ reads_as be64 case_type (sk_data s') 2 case_dtype OrderFortran [1; 2] W_vals.
Proof.
  eexists. split; [ vm_compute; reflexivity | ]. split; [ vm_compute; reflexivity | ]. split; [ vm_compute; reflexivity | ]. split; [ vm_compute; reflexivity | ].
  unfold reads_as. eexists _, _. split; [ vm_compute; reflexivity | ]. split; [ reflexivity | ]. split; [ reflexivity | ]. split; [ reflexivity | ]. vm_compute. reflexivity.
Qed.

(** * C08: growing, one-dimensional *)
Theorem C08_round_trip : forall c c' t d o vs s s', wf_dtype d -> Forall (has_type t) vs -> lenN vs < 2 ^ 64 ->
  write_file c t d o OneDimensional true vs s = (Ok tt, s') ->
  accepts (c_usize_max c') Reading t d -> sizes_fit (c_usize_max c') d -> strings_fit (c_usize_max c') d ->
  reads_as c' t (sk_data s') (sk_pos s) d o [lenN vs] (map (read_back t d) vs)
  /\ (Forall (survives t d) vs -> reads_as c' t (sk_data s') (sk_pos s) d o [lenN vs] vs).
Proof. exact growing_1d_round_trip. Qed.
Print Assumptions C08_round_trip.
Theorem C08_succeeds : forall c t d o vs s, wf_dtype d -> strings_fit (c_usize_max c) d -> top_level d -> accepts (c_usize_max c) Writing t d -> Forall (has_type t) vs ->
  Forall (fun v => exists b, encode t d v = Some b) vs -> lenN vs < 2 ^ 64 -> short_header d OneDimensional -> sk_fuel s = None ->
  exists s', write_file c t d o OneDimensional true vs s = (Ok tt, s').
Proof. exact growing_1d_succeeds. Qed.
Print Assumptions C08_succeeds.
Example C08_case : exists s', write_file be64 case_type case_dtype OrderC OneDimensional true W_vals W_sink = (Ok tt, s')
  /\ reads_as le32 case_type (sk_data s') 2 case_dtype OrderC [2] W_vals.
Proof.
  eexists. split; [ vm_compute; reflexivity | ].
  unfold reads_as. eexists _, _. split; [ vm_compute; reflexivity | ]. split; [ reflexivity | ]. split; [ reflexivity | ]. split; [ reflexivity | ]. vm_compute. reflexivity.
Qed.

(** * C09: growing, two-dimensional *)
Theorem C09_round_trip : forall c c' t d o rl vs s s', wf_dtype d -> Forall (has_type t) vs -> lenN vs < 2 ^ 64 -> rl < 2 ^ 64 ->
  write_file c t d o (TwoDimensional rl) true vs s = (Ok tt, s') ->
  accepts (c_usize_max c') Reading t d -> sizes_fit (c_usize_max c') d -> strings_fit (c_usize_max c') d ->
  exists rows, lenN vs = rows * rl /\ 0 < rl /\
  let shape := match o with OrderC => [rows; rl] | OrderFortran => [rl; rows] end in
  reads_as c' t (sk_data s') (sk_pos s) d o shape (map (read_back t d) vs)
  /\ (Forall (survives t d) vs -> reads_as c' t (sk_data s') (sk_pos s) d o shape vs).
Proof. exact growing_2d_round_trip. Qed.
Print Assumptions C09_round_trip.
(** On an output that does not fail: success for a multiple of the record length, an error otherwise.  (Record length 0: C47.) *)
Theorem C09_result : forall c t d o rl vs s, wf_dtype d -> strings_fit (c_usize_max c) d -> top_level d -> accepts (c_usize_max c) Writing t d -> Forall (has_type t) vs ->
  Forall (fun v => exists b, encode t d v = Some b) vs -> lenN vs < 2 ^ 64 -> 0 < rl < 2 ^ 64 -> short_header d (TwoDimensional rl) -> sk_fuel s = None ->
  exists r s', write_file c t d o (TwoDimensional rl) true vs s = (r, s')
  /\ ((exists rows, lenN vs = rows * rl) -> r = Ok tt) /\ (~ (exists rows, lenN vs = rows * rl) -> exists e, r = Err e).
Proof. exact growing_2d_result. Qed.
Print Assumptions C09_result.
Example C09_case : (exists s', write_file le64 case_type case_dtype OrderFortran (TwoDimensional 1) true W_vals W_sink = (Ok tt, s')
    /\ reads_as be64 case_type (sk_data s') 2 case_dtype OrderFortran [1; 2] W_vals)
  /\ (exists s', write_file le64 case_type case_dtype OrderC (TwoDimensional 1) true W_vals W_sink = (Ok tt, s')
    /\ reads_as be64 case_type (sk_data s') 2 case_dtype OrderC [2; 1] W_vals)
  /\ exists e, fst (write_file le64 case_type case_dtype OrderC (TwoDimensional 3) true W_vals W_sink) = Err e.
Proof.
  split; [ | split; [ | eexists; vm_compute; reflexivity ] ].
  all: eexists; split; [ vm_compute; reflexivity | ]; unfold reads_as; eexists _, _; split; [ vm_compute; reflexivity | ];
    split; [ reflexivity | ]; split; [ reflexivity | ]; split; [ reflexivity | ]; vm_compute; reflexivity.
Qed.

(** * C10: what finishing changes *)
(** For any history of pushes (also failed ones) and any outcome of [finish] (also failing in the middle): the output keeps its length
    and differs only between [pre] and [post], a range inside the header, which [begin] wrote between the positions of [s] and [s1]. *)
Theorem C10_only_header : forall c t d o h vs s w s1 rs w' s2 r s3, growing h -> lenN vs < 2 ^ 64 ->
  begin_ c t d o h true s = (Ok w, s1) -> push_each c vs w s1 = (rs, w', s2) -> finish w' s2 = (r, s3) ->
  (exists pre old new post, sk_data s2 = pre ++ old ++ post /\ sk_data s3 = pre ++ new ++ post /\ lenN old = lenN new
     /\ sk_pos s <= lenN pre /\ lenN (pre ++ old) <= sk_pos s1)
  /\ (sk_fuel s2 = None -> sk_pos s3 = sk_pos s2).
Proof. exact finish_only_shape. Qed.
Print Assumptions C10_only_header.
(** A successful file as a whole: everything before the start and after the end is as it was, and the position is at the end. *)
Theorem C10_surroundings : forall c t d o h vs s s', wf_dtype d -> Forall (has_type t) vs -> lenN vs < 2 ^ 64 -> hint_ok h ->
  write_file c t d o h (output_kind h) vs s = (Ok tt, s') ->
  exists shape hdr payload, final_shape h o (lenN vs) = Some shape /\ encodings t d vs payload
  /\ placed (sk_data s) (sk_pos s) (hdr ++ payload) (sk_data s')
  /\ (sk_fuel s = None -> sk_pos s' = sk_pos s + lenN (hdr ++ payload) /\ sk_fuel s' = None)
  /\ file_with d o shape (hdr ++ payload) payload.
Proof. exact write_file_ok. Qed.
Print Assumptions C10_surroundings.
Definition W_long : sink := {| sk_data := repeatN 7 400; sk_pos := 2; sk_fuel := None |}.
Example C10_case : exists w s1 rs w' s2 s3, begin_ le64 case_type case_dtype OrderC OneDimensional true W_long = (Ok w, s1)
  /\ push_each le64 [case_val; XInt 0] w s1 = (rs, w', s2) /\ finish w' s2 = (Ok tt, s3)
  /\ sk_data s3 <> sk_data s2 /\ lenN (sk_data s3) = 400 /\ dropN 300 (sk_data s3) = repeatN 7 100 /\ takeN 3 (sk_data s3) = [7; 7; 0x93].
Proof.
  eexists _, _, _, _, _, _. split; [ vm_compute; reflexivity | ]. split; [ vm_compute; reflexivity | ]. split; [ vm_compute; reflexivity | ].
  split; [ vm_compute; discriminate | ]. split; [ vm_compute; reflexivity | ]. split; vm_compute; reflexivity.
Qed.

(** * C11: finishing twice *)
(** [finish] runs [finish_] and then drops the writer, which runs it again. *)
Theorem C11_once : forall c t d o h vs s w s1 rs w' s2, lenN vs < 2 ^ 64 ->
  begin_ c t d o h (output_kind h) s = (Ok w, s1) -> push_each c vs w s1 = (rs, w', s2) ->
  fst (finish w' s2) = fst (finish_ w' s2) /\ sk_data (snd (finish w' s2)) = sk_data (snd (finish_ w' s2))
  /\ (sk_fuel s2 = None -> finish w' s2 = finish_ w' s2).
Proof. exact finish_twice. Qed.
Print Assumptions C11_once.
Example C11_case : exists w s1 rs w' s2 s3, begin_ le64 case_type case_dtype OrderC (TwoDimensional 1) true W_sink = (Ok w, s1)
  /\ push_each le64 W_vals w s1 = (rs, w', s2) /\ finish w' s2 = (Ok tt, s3) /\ sk_data s3 <> sk_data s2.
Proof.
  eexists _, _, _, _, _, _. split; [ vm_compute; reflexivity | ]. split; [ vm_compute; reflexivity | ]. split; [ vm_compute; reflexivity | ]. vm_compute. discriminate.
Qed.

(** * C12: item count of a fixed shape *)
(** The count is compared modulo 2^64; on a machine with checked arithmetic [begin_nd] succeeds only if that makes no difference. *)
Theorem C12_count_exact : forall c t d o shape vs s w s1 rs w' s2, lenN vs < 2 ^ 64 ->
  begin_nd c t d o shape s = (Ok w, s1) -> push_each c vs w s1 = (rs, w', s2) ->
  (fst (finish w' s2) = Err (EData (lit "shape has " ++ dec (count shape mod 2 ^ 64) ++ lit " item(s), but " ++ dec (lenN vs) ++ lit " item(s) were written!")) <-> count shape mod 2 ^ 64 <> lenN vs)
  /\ (c_ovf_panics c = true -> count shape = count shape mod 2 ^ 64)
  /\ (sk_fuel s = None -> fst (finish w' s2) = Ok tt <-> count shape mod 2 ^ 64 = lenN vs).
Proof. exact fixed_count. Qed.
Print Assumptions C12_count_exact.
Example C12_case : exists w s1, begin_nd le64 (RInt false W1) (plain Irrelevant TUint 1) OrderC [2; 0; 3] W_sink = (Ok w, s1) /\ fst (finish w s1) = Ok tt
  /\ exists e, fst (let '(rs, w', s2) := push_each le64 [XInt 3] w s1 in finish w' s2) = Err e.
Proof. eexists _, _. split; [ vm_compute; reflexivity | ]. split; [ vm_compute; reflexivity | ]. eexists. vm_compute. reflexivity. Qed.
(** Without checked arithmetic a shape of 2^64 elements accepts no items at all. *)
Theorem C12_overflow_refuted : exists c t d o shape s w s1, begin_nd c t d o shape s = (Ok w, s1) /\ sk_fuel s = None
  /\ Forall (fun n => n < 2 ^ 64) shape /\ count shape <> 0 /\ fst (finish w s1) = Ok tt.
Proof.
  exists be64, (RInt false W1), (plain Irrelevant TUint 1), OrderC, [2 ^ 32; 2 ^ 32], W_sink. eexists _, _.
  split; [ vm_compute; reflexivity | ]. split; [ reflexivity | ]. split; [ repeat constructor | ]. split; vm_compute; [ discriminate | reflexivity ].
Qed.
Print Assumptions C12_overflow_refuted.

(** * C13: no seeking *)
(** A whole session with [begin_nd] - any history of pushes, then [finish] or not - and [write_header_only] write and return the same
    whatever the position and the contents of the output, and only write forward. *)
Theorem C13_sequential : forall c t d o shape vs e, sequential (session c t d o (NDimensional shape) false vs e).
Proof. exact session_sequential. Qed.
Print Assumptions C13_sequential.
Theorem C13_header_only : forall c d o shape, sequential (write_header_only c d o shape).
Proof. exact header_only_sequential. Qed.
Print Assumptions C13_header_only.
(** In particular [unreachable!] in the seeking functions is not reached: once begun, nothing panics. *)
Theorem C13_no_panic : forall c t d o shape vs e s w s1, wf_dtype d -> strings_fit (c_usize_max c) d -> Forall (has_type t) vs -> lenN vs < 2 ^ 64 ->
  begin_nd c t d o shape s = (Ok w, s1) ->
  exists rs r s', session c t d o (NDimensional shape) false vs e s = (Ok (rs, r), s') /\ ~ In Panic rs /\ r <> Panic.
Proof. exact fixed_no_panic. Qed.
Print Assumptions C13_no_panic.
(** The growing writers are not sequential, and do panic on an output that cannot seek. *)
Example C13_case : ~ sequential (session le64 (RInt false W1) (plain Irrelevant TUint 1) OrderC OneDimensional true [XInt 5] Finished)
  /\ exists rs s', session le64 (RInt false W1) (plain Irrelevant TUint 1) OrderC OneDimensional false [XInt 5] Finished empty_sink = (Ok (rs, Panic), s').
Proof.
  split; [ | eexists _, _; vm_compute; reflexivity ]. intros H. destruct (H (Some 132)) as (a & bs & f & E). specialize (E [] 0).
  set (e0 := {| sk_data := []; sk_pos := 0; sk_fuel := Some 132 |}) in E.
  assert (Hn : (fun s => lenN (sk_data s) =? sk_pos s) (snd (session le64 (RInt false W1) (plain Irrelevant TUint 1) OrderC OneDimensional true [XInt 5] Finished e0)) = false)
    by (vm_compute; reflexivity).
  rewrite E in Hn. cbn [snd] in Hn. clear E H. apply N.eqb_neq in Hn. apply Hn. clear Hn.
  unfold advanced. cbn [sk_data sk_pos]. destruct bs as [ | b bs ]; [ reflexivity | ].
  set (l := b :: bs). rewrite !lenN_app. rewrite lenN_takeN, lenN_repeatN, lenN_dropN. change (lenN (@nil N)) with 0. lia.
Qed.

(** * C32: failed pushes *)
(** Every call of [push] counts as an item of the finished file, whatever it returned. *)
Theorem C32_every_push_counts : forall c t d o vs s w s1 rs w' s2 s3, wf_dtype d -> lenN vs < 2 ^ 64 -> begin_1d c t d o s = (Ok w, s1) ->
  push_each c vs w s1 = (rs, w', s2) -> finish w' s2 = (Ok tt, s3) ->
  forall c', (exists n, num_bytes c' d = Some n) ->
  exists h rest, run (read_and_interpret c') (dropN (sk_pos s) (sk_data s3)) = (Ok h, rest) /\ h_shape h = [lenN vs] /\ h_dtype h = d.
Proof. exact pushes_counted. Qed.
Print Assumptions C32_every_push_counts.
(** So the claim is false: here [push] fails, [finish] succeeds, and the file promises two items but stores one.  Reading it fails. *)
Theorem C32_refuted : exists c t d o vs s w s1 w' s2 s3 f src' e, Forall (has_type t) vs /\ begin_1d c t d o s = (Ok w, s1)
  /\ push_each c vs w s1 = ([Err (EData e); Ok tt], w', s2) /\ finish w' s2 = (Ok tt, s3)
  /\ npy_new c (from_start (sk_data s3)) = (Ok f, src') /\ h_shape (nf_header f) = [2] /\ fst (npy_into_vec c t f) = Err EUnexpectedEof.
Proof.
  exists le64, RVecU8, (plain Irrelevant TByteStr 2), OrderC, [XBytes [1; 2; 3]; XBytes [4; 5]], empty_sink. eexists _, _, _, _, _, _, _, _.
  split; [ repeat constructor | ]. split; [ vm_compute; reflexivity | ]. split; [ vm_compute; reflexivity | ]. split; [ vm_compute; reflexivity | ].
  split; [ vm_compute; reflexivity | ]. split; vm_compute; reflexivity.
Qed.
Print Assumptions C32_refuted.

(** * C33: the builder *)
(** Any sequence of option calls is equivalent to its last dtype, shape, writer and order, the default order being C.  ([None]: the
    program does not compile.) *)
Theorem C33_last_wins : forall c t r (ks : list (option_call sink)),
  build_nd c t (configured ks) = match last_some as_dtype ks, last_some as_shape ks, last_some as_writer ks with
                                 | Some d, Some shape, Some s => Some (begin_nd c t d (the_order ks) shape s) | _, _, _ => None end
  /\ build_1d c t (configured ks) = match last_some as_dtype ks, last_some as_writer ks with
                                    | Some d, Some s => Some (begin_1d c t d (the_order ks) s) | _, _ => None end
  /\ build_2d c t r (configured ks) = match last_some as_dtype ks, last_some as_writer ks with
                                      | Some d, Some s => Some (begin_2d c t d (the_order ks) r s) | _, _ => None end
  /\ build_header_only c (configured ks) = match last_some as_dtype ks, last_some as_shape ks, last_some as_writer ks with
                                           | Some d, Some shape, Some s => Some (write_header_only c d (the_order ks) shape s) | _, _, _ => None end.
Proof. exact builder_exact. Qed.
Print Assumptions C33_last_wins.
Theorem C33_order_independent : forall c t r (ks ks' : list (option_call sink)),
  last_some as_dtype ks = last_some as_dtype ks' -> last_some as_shape ks = last_some as_shape ks' -> last_some as_writer ks = last_some as_writer ks' -> last_some as_order ks = last_some as_order ks' ->
  build_nd c t (configured ks) = build_nd c t (configured ks') /\ build_1d c t (configured ks) = build_1d c t (configured ks')
  /\ build_2d c t r (configured ks) = build_2d c t r (configured ks') /\ build_header_only c (configured ks) = build_header_only c (configured ks').
Proof. exact builder_same. Qed.
Print Assumptions C33_order_independent.
Definition C33_a : list (option_call sink) := [OptShape [9]; OptOrder OrderFortran; OptDType case_dtype; OptWriter W_sink; OptShape [1; 2]].
Definition C33_b : list (option_call sink) := [OptWriter W_sink; OptOrder OrderC; OptDType (plain Little TInt 8); OptShape [1; 2]; OptDType case_dtype; OptOrder OrderFortran].
Example C33_case : exists w s1, build_nd le64 case_type (configured C33_a) = Some (Ok w, s1) /\ build_nd le64 case_type (configured C33_b) = Some (Ok w, s1)
  /\ the_order [OptDType case_dtype : option_call sink] = OrderC.
Proof. eexists _, _. split; [ vm_compute; reflexivity | ]. split; vm_compute; reflexivity. Qed.

(** * C47: record length 0 *)
(** Whatever was pushed, finishing panics, and so does dropping the writer. *)
Theorem C47_always_panics : forall c t d o vs s w s1 rs w' s2, lenN vs < 2 ^ 64 -> begin_2d c t d o 0 s = (Ok w, s1) -> push_each c vs w s1 = (rs, w', s2) ->
  finish w' s2 = (Panic, s2) /\ drop_writer w' s2 = (Panic, s2).
Proof. exact zero_record_panics. Qed.
Print Assumptions C47_always_panics.
Theorem C47_refuted : exists c t d o s w s1, begin_2d c t d o 0 s = (Ok w, s1) /\ sk_fuel s = None /\ fst (finish w s1) = Panic /\ fst (drop_writer w s1) = Panic.
Proof.
  exists le64, case_type, case_dtype, OrderC, W_sink. eexists _, _. split; [ vm_compute; reflexivity | ]. split; [ reflexivity | ]. split; vm_compute; reflexivity.
Qed.
Print Assumptions C47_refuted.
(** With something pushed. *)
Example C47_case : exists w s1 rs w' s2, begin_2d le64 (RInt false W2) (plain Little TUint 2) OrderC 0 W_sink = (Ok w, s1) /\ push_each le64 [XInt 5; XInt 6] w s1 = (rs, w', s2) /\ rs = [Ok tt; Ok tt]
  /\ finish w' s2 = (Panic, s2).
Proof. eexists _, _, _, _, _. split; [ vm_compute; reflexivity | ]. split; [ vm_compute; reflexivity | ]. split; vm_compute; reflexivity. Qed.
