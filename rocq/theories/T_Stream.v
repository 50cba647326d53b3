(** C55: several arrays in one stream; C31 and C54 continued. *)
From Verif Require Import M_Base M_Text M_TypeStr M_PyLit M_IO M_Header M_Read M_Serialize M_NpyReader M_Write.
From Verif Require Import S_TypeStr S_DType S_Shape S_Header S_Elem S_Strings S_Reader S_Write S_Stream
  P_Base P_Header P_IO P_Strings P_Elem P_Stream T_Elem T_Reader T_IO T_Write.
Open Scope N_scope.

(** C31: a stream without seeking that delivers the bytes in any pieces gives what a file with these bytes ahead gives. *)
Theorem C31_same_as_file : forall c t s src, live s -> sched_bytes s = cur_rest src ->
  fst (run_sched (into_vec_prog c t) s) =
  match npy_new c src with
  | (Ok f, _) => let* vs := fst (npy_into_vec c t f) in Ok (nf_header f, vs)
  | (Err e, _) => Err e
  | (Panic, _) => Panic
  end.
Proof. exact sched_same_as_file. Qed.
Print Assumptions C31_same_as_file.
Example C31_same_case : live (C31_split 20 C31_file) /\ sched_bytes (C31_split 20 C31_file) = cur_rest (from_start C31_file).
Proof. split; [ repeat constructor; discriminate | vm_compute; reflexivity ]. Qed.

(** C54: the stream given back by [into_inner] is the original one right after the header: the bytes read so far are a header (they
    parse the same whatever follows), and nothing after it was consumed. *)
Theorem C54_into_inner : forall c src f src', npy_new c src = (Ok f, src') ->
  npy_into_inner f = src' /\ cur_data (npy_into_inner f) = cur_data src
  /\ exists hdr, cur_rest src = hdr ++ cur_rest (npy_into_inner f) /\ cur_pos (npy_into_inner f) = cur_pos src + lenN hdr
     /\ forall more, run (read_and_interpret c) (hdr ++ more) = (Ok (nf_header f), more).
Proof. exact inner_at_data. Qed.
Print Assumptions C54_into_inner.
Example C54_inner_case : exists f src', npy_new le64 (from_start C31_file) = (Ok f, src') /\ cur_rest (npy_into_inner f) = [7; 8; 9; 99].
Proof. eexists _, _. split; vm_compute; reflexivity. Qed.

(** * C55 *)
(** Arrays written one after the other, beginning anywhere in any contents, are read one after the other: from a seekable source, ending
    exactly where writing ended; and from a stream delivering the bytes in any pieces, leaving exactly what follows the last array. *)
Theorem C55_round_trip : forall c c' l s s', Forall array_ok l -> Forall (array_readable c') l -> sk_fuel s = None -> write_arrays c l s = (Ok tt, s') ->
  exists xs, Forall2 array_read l xs
  /\ read_arrays c' (map a_type l) {| cur_data := sk_data s'; cur_pos := sk_pos s |} = (Ok xs, {| cur_data := sk_data s'; cur_pos := sk_pos s' |})
  /\ forall sched, live sched -> sched_bytes sched = dropN (sk_pos s) (sk_data s') ->
     fst (run_sched (read_stream c' (map a_type l)) sched) = Ok xs
     /\ sched_bytes (snd (run_sched (read_stream c' (map a_type l)) sched)) = dropN (sk_pos s') (sk_data s').
Proof. exact arrays_round_trip. Qed.
Print Assumptions C55_round_trip.
(** They are stored as one block, and everything around it is as it was. *)
Theorem C55_surroundings : forall c c' l s s', Forall array_ok l -> Forall (array_readable c') l -> sk_fuel s = None -> sk_pos s <= lenN (sk_data s) ->
  write_arrays c l s = (Ok tt, s') ->
  exists file, placed (sk_data s) (sk_pos s) file (sk_data s') /\ sk_pos s' = sk_pos s + lenN file.
Proof. exact arrays_place. Qed.
Print Assumptions C55_surroundings.
Theorem C55_succeeds : forall c l s, Forall array_ok l ->
  Forall (fun a => top_level (a_dtype a) /\ strings_fit (c_usize_max c) (a_dtype a) /\ accepts (c_usize_max c) Writing (a_type a) (a_dtype a)
    /\ Forall (fun v => exists b, encode (a_type a) (a_dtype a) v = Some b) (a_vals a) /\ short_header (a_dtype a) (a_hint a)
    /\ final_shape (a_hint a) (a_order a) (lenN (a_vals a)) <> None) l -> sk_fuel s = None ->
  exists s', write_arrays c l s = (Ok tt, s').
Proof. exact arrays_succeed. Qed.
Print Assumptions C55_succeeds.

Definition C55_u16 : dtype := plain Big TUint 2.
Definition C55_arrays : list array :=
  [ {| a_type := case_type; a_dtype := case_dtype; a_order := OrderC; a_hint := OneDimensional; a_vals := W_vals |};
    {| a_type := RInt false W2; a_dtype := C55_u16; a_order := OrderFortran; a_hint := NDimensional [1; 3]; a_vals := [XInt 5; XInt 6; XInt 65535] |};
    {| a_type := RInt false W2; a_dtype := C55_u16; a_order := OrderC; a_hint := TwoDimensional 2; a_vals := [XInt 1; XInt 2; XInt 3; XInt 4] |} ].
Example C55_case : Forall array_ok C55_arrays /\ Forall (array_readable be64) C55_arrays
  /\ exists s', write_arrays le64 C55_arrays W_sink = (Ok tt, s') /\ sk_pos W_sink <= lenN (sk_data W_sink)
     /\ exists h1 h2 h3 src', read_arrays be64 (map a_type C55_arrays) {| cur_data := sk_data s'; cur_pos := 2 |}
          = (Ok [(h1, W_vals); (h2, [XInt 5; XInt 6; XInt 65535]); (h3, [XInt 1; XInt 2; XInt 3; XInt 4])], src')
        /\ h_shape h1 = [2] /\ h_shape h2 = [1; 3] /\ h_shape h3 = [2; 2].
Proof.
  assert (Hcase : Forall (has_type case_type) W_vals) by apply W_vals_ok.
  assert (Hd : wf_dtype case_dtype) by exact (proj1 case_ok).
  assert (Hu : wf_dtype C55_u16) by wf_case.
  assert (Hno : no_overflow [1; 3]) by (intros k; destruct k as [ | [ | [ | k ] ] ]; cbn [firstn skipn]; rewrite ?firstn_nil, ?skipn_nil; cbn; split; reflexivity).
  split.
  { unfold C55_arrays. apply Forall_cons; [ | apply Forall_cons; [ | apply Forall_cons; [ | apply Forall_nil ] ] ]; unfold array_ok; cbn [a_type a_dtype a_hint a_vals hint_ok];
      (split; [ assumption | split; [ first [ assumption | repeat (apply Forall_cons; [ cbn; lia | ]); apply Forall_nil ] | split; [ reflexivity | first [ exact I | reflexivity | split; [ repeat constructor | assumption ] ] ] ] ]). }
  split.
  { unfold C55_arrays. apply Forall_cons; [ | apply Forall_cons; [ | apply Forall_cons; [ | apply Forall_nil ] ] ]; unfold array_readable; cbn [a_type a_dtype];
      (split; [ apply reader_accepts; eexists; reflexivity | cbn; repeat split; discriminate ]). }
  eexists. split; [ vm_compute; reflexivity | ]. split; [ vm_compute; discriminate | ].
  eexists _, _, _, _. split; [ vm_compute; reflexivity | ]. repeat split; reflexivity.
Qed.
