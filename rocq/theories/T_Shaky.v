(** C76: writers over outputs whose calls fail now and then. *)
From Verif Require Import M_Base M_Text M_TypeStr M_PyLit M_IO M_Header M_Read M_Serialize M_NpyReader M_Write M_Buffered M_Shaky.
From Verif Require Import S_Text S_TypeStr S_DType S_Shape S_Header S_Elem S_Strings S_Reader S_Write S_Reject S_DText S_File S_Fault S_Message S_Outcome S_Shaky
  P_Base P_Header P_Shape P_Elem P_Shaky T_Elem T_Reader T_Write T_File.
Open Scope N_scope.

(** Whichever calls fail, results and bytes are among those of S_Shaky.v ... *)
Theorem C76_sound : forall c t d o h vs e s plan, wf_dtype d -> strings_fit (c_usize_max c) d -> top_level d -> Forall (has_type t) vs -> lenN vs < 2 ^ 64 ->
  hint_ok h -> short_header d h -> sk_fuel s = None -> sk_pos s <= lenN (sk_data s) ->
  exists r y' file, session_on (@run_shaky) c t d o h (output_kind h) vs e {| y_out := s; y_plan := plan |} = (r, y')
  /\ shaky_outcome (c_usize_max c) t d o h vs e r file /\ placed (sk_data s) (sk_pos s) file (sk_data (y_out y')).
Proof.
  intros c t d o h vs e s plan H1 H2 H3 H4 H5 H6 H7 H8 H9. destruct (shaky_sound c t d o h vs e s plan H1 H2 H3 H4 H5 H6 H7 H8 H9) as (r & y & f & A & B & C & _).
  exists r, y, f. auto.
Qed.
Print Assumptions C76_sound.
(** ... and each of them can happen. *)
Theorem C76_complete : forall c t d o h vs e s r file, wf_dtype d -> strings_fit (c_usize_max c) d -> top_level d -> Forall (has_type t) vs -> lenN vs < 2 ^ 64 ->
  hint_ok h -> short_header d h -> sk_fuel s = None -> sk_pos s <= lenN (sk_data s) -> shaky_outcome (c_usize_max c) t d o h vs e r file ->
  exists plan y', session_on (@run_shaky) c t d o h (output_kind h) vs e {| y_out := s; y_plan := plan |} = (r, y') /\ placed (sk_data s) (sk_pos s) file (sk_data (y_out y')).
Proof. exact shaky_complete. Qed.
Print Assumptions C76_complete.
Theorem C76_exactly : forall c t d o h vs e r file, wf_dtype d -> strings_fit (c_usize_max c) d -> top_level d -> Forall (has_type t) vs -> lenN vs < 2 ^ 64 ->
  hint_ok h -> short_header d h ->
  (exists plan y', session_on (@run_shaky) c t d o h (output_kind h) vs e {| y_out := empty_sink; y_plan := plan |} = (r, y') /\ sk_data (y_out y') = file)
  <-> shaky_outcome (c_usize_max c) t d o h vs e r file.
Proof. exact shaky_exactly. Qed.
Print Assumptions C76_exactly.

(** If no call fails this is the writer of M_Write.v. *)
Theorem C76_untroubled : forall c t d o h k vs e s plan, Forall (eq None) plan -> exists plan',
  session_on (@run_shaky) c t d o h k vs e {| y_out := s; y_plan := plan |} = (fst (session c t d o h k vs e s), {| y_out := snd (session c t d o h k vs e s); y_plan := plan' |}).
Proof. exact shaky_calm. Qed.
Print Assumptions C76_untroubled.

(** All pushes and [finish] returned [Ok]: the file is there, byte for byte, even if calls failed while the writer was dropped. *)
Theorem C76_success : forall c t d o h vs s plan rs y', wf_dtype d -> strings_fit (c_usize_max c) d -> top_level d -> Forall (has_type t) vs -> lenN vs < 2 ^ 64 ->
  hint_ok h -> short_header d h -> sk_fuel s = None -> sk_pos s <= lenN (sk_data s) ->
  session_on (@run_shaky) c t d o h (output_kind h) vs Finished {| y_out := s; y_plan := plan |} = (Ok (rs, Ok tt), y') -> Forall (eq (Ok tt)) rs ->
  exists shape payload file, final_shape h o (lenN vs) = Some shape /\ encodings t d vs payload /\ finished_file d o h shape payload file
  /\ placed (sk_data s) (sk_pos s) file (sk_data (y_out y')).
Proof. exact shaky_success. Qed.
Print Assumptions C76_success.

(** If a push was stopped, the finished file lacks data and no reader reads it as a whole. *)
Theorem C76_stopped_short : forall m t d vs rs data, accepts m Writing t d -> Forall (has_type t) vs -> shaky_pushes t d vs rs data ->
  bytes_ok data /\ lenN data <= lenN vs * size d /\ (In (Err ESink) rs -> lenN data < lenN vs * size d).
Proof. exact stopped_len. Qed.
Print Assumptions C76_stopped_short.
Theorem C76_never_whole : forall c c' t t' d o h vs plan rs y' f src' items, wf_dtype d -> strings_fit (c_usize_max c) d -> strings_fit (c_usize_max c') d -> top_level d ->
  Forall (has_type t) vs -> lenN vs < 2 ^ 64 -> hint_ok h -> short_header d h -> (exists n, num_bytes c' d = Some n) ->
  session_on (@run_shaky) c t d o h (output_kind h) vs Finished {| y_out := empty_sink; y_plan := plan |} = (Ok (rs, Ok tt), y') -> In (Err ESink) rs ->
  npy_new c' {| cur_data := sk_data (y_out y'); cur_pos := 0 |} = (Ok f, src') -> fst (npy_into_vec c' t' f) <> Ok items.
Proof. exact shaky_short. Qed.
Print Assumptions C76_never_whole.

(** If no push failed then, whatever happened at the beginning and at the end and how often, the file is refused or read as what was pushed. *)
Theorem C76_never_mistaken : forall c c' t d o h vs e D plan r y', wf_dtype d -> strings_fit (c_usize_max c) d -> top_level d -> Forall (has_type t) vs -> lenN vs < 2 ^ 64 ->
  hint_ok h -> short_header d h -> unmistakable o h (lenN vs) -> (exists n, num_bytes c' d = Some n) ->
  session_on (@run_shaky) c t d o h (output_kind h) vs e {| y_out := {| sk_data := D; sk_pos := lenN D; sk_fuel := None |}; y_plan := plan |} = (r, y') ->
  (forall rs r', r = Ok (rs, r') -> Forall (eq (Ok tt)) rs) -> whole_or_error c' t d o h vs (sk_data (y_out y')) (lenN D).
Proof. exact shaky_safe. Qed.
Print Assumptions C76_never_mistaken.

(** * Cases *)
Definition C76_d : dtype := plain Little TUint 2.
Definition C76_t : rty := RInt false W2.
Definition C76_vals : list val := [XInt 1; XInt 2].
Definition C76_header (shape : string) (spaces : N) : bytes := [0x93] ++ lit "NUMPY" ++ [1; 0; 118; 0]
  ++ lit "{'descr': '<u2', 'fortran_order': False, 'shape': (" ++ lit shape ++ lit "), }" ++ repeatN 32 spaces ++ [10].
(** The calls: one question for the position, five writes of the header, two pushes; then question, move, write, move, flush, by [finish] and again by [drop]. *)
Definition C76_run (plan : list (option N)) : res (list (res unit) * res unit) * shaky :=
  session_on (@run_shaky) le64 C76_t C76_d OrderC OneDimensional true C76_vals Finished {| y_out := empty_sink; y_plan := plan |}.
Definition C76_until (k : nat) (x : option N) : list (option N) := repeat None k ++ [x].
(** An output that works; [finish] fails and yet the file is whole, as dropping tried again; [finish] and dropping fail in the middle of the header. *)
Example C76_case : wf_dtype C76_d /\ strings_fit usize64 C76_d /\ top_level C76_d /\ Forall (has_type C76_t) C76_vals /\ hint_ok OneDimensional /\ short_header C76_d OneDimensional
  /\ (exists y, C76_run [] = (Ok ([Ok tt; Ok tt], Ok tt), y) /\ sk_data (y_out y) = C76_header "2," 60 ++ [1; 0; 2; 0] /\ sk_pos (y_out y) = 132)
  /\ (exists y, C76_run (C76_until 8 (Some 0)) = (Ok ([Ok tt; Ok tt], Err ESink), y) /\ sk_data (y_out y) = C76_header "2," 60 ++ [1; 0; 2; 0])
  /\ (exists y, C76_run (C76_until 10 (Some 1) ++ [None; None; Some 2]) = (Ok ([Ok tt; Ok tt], Err ESink), y)
      /\ sk_data (y_out y) = C76_header "2,******************," 41 ++ [1; 0; 2; 0])
  /\ (exists y, C76_run (C76_until 3 (Some 1)) = (Err ESink, y) /\ sk_data (y_out y) = [0x93] ++ lit "NUMPY" ++ [1]).
Proof.
  split; [ wf_case | ]. split; [ vm_compute; intuition discriminate | ]. split; [ exact I | ]. split; [ repeat constructor; vm_compute; intuition discriminate | ]. split; [ exact I | ].
  split; [ vm_compute; discriminate | ]. split; [ eexists; split; [ vm_compute; reflexivity | ]; split; vm_compute; reflexivity | ].
  split; [ eexists; split; [ vm_compute; reflexivity | ]; vm_compute; reflexivity | ]. split; eexists; (split; [ vm_compute; reflexivity | vm_compute; reflexivity ]).
Qed.

(** * Where the output stands afterwards *)
(** One would expect: after [finish] has returned [Ok] the output stands behind the file, so that one may write on.  Not if a call failed while the writer was dropped: the output
    then stands inside the header, and the next array destroys the first one, although nothing ever returned an error. *)
Theorem C76_position_refuted : exists c t d o h vs plan y1 y2 e src,
  session_on (@run_shaky) c t d o h (output_kind h) vs Finished {| y_out := empty_sink; y_plan := plan |} = (Ok (map (fun _ => Ok tt) vs, Ok tt), y1)
  /\ sk_pos (y_out y1) <> lenN (sk_data (y_out y1)) /\ reads_as c t (sk_data (y_out y1)) 0 d o [lenN vs] vs
  /\ session_on (@run_shaky) c t d o h (output_kind h) vs Finished y1 = (Ok (map (fun _ => Ok tt) vs, Ok tt), y2)
  /\ npy_new c {| cur_data := sk_data (y_out y2); cur_pos := 0 |} = (Err e, src).
Proof.
  exists le64, C76_t, C76_d, OrderC, OneDimensional, C76_vals, (C76_until 15 (Some 1)). eexists _, _, _, _. split; [ vm_compute; reflexivity | ].
  split; [ vm_compute; discriminate | ]. split; [ eexists _, _; split; [ vm_compute; reflexivity | ]; repeat split; vm_compute; reflexivity | ].
  split; [ vm_compute; reflexivity | ]. vm_compute. reflexivity.
Qed.
Print Assumptions C76_position_refuted.
(** What holds: behind the file, or, if the header is one that is filled in at the end, inside it. *)
Theorem C76_position_partial : forall c t d o h vs e s plan rs r y', wf_dtype d -> strings_fit (c_usize_max c) d -> top_level d -> Forall (has_type t) vs -> lenN vs < 2 ^ 64 ->
  hint_ok h -> short_header d h -> sk_fuel s = None -> sk_pos s <= lenN (sk_data s) ->
  session_on (@run_shaky) c t d o h (output_kind h) vs e {| y_out := s; y_plan := plan |} = (Ok (rs, r), y') ->
  exists data file, shaky_pushes t d vs rs data /\ placed (sk_data s) (sk_pos s) file (sk_data (y_out y'))
  /\ (sk_pos (y_out y') = sk_pos s + lenN file
      \/ output_kind h = true /\ sk_pos s < sk_pos (y_out y') /\ sk_pos (y_out y') + lenN data < sk_pos s + lenN file).
Proof. exact shaky_position. Qed.
Print Assumptions C76_position_partial.

(** * Trying again *)
(** One would expect: if a push failed because of the output and is repeated with success, the file holds the values.  But the failed one was counted and part of it was stored:
    the file promises three items, the second is none of those pushed, and the third is missing. *)
Theorem C76_retry_refuted : exists c t d o h v1 v2 wrong plan y f src, wrong <> v1 /\ wrong <> v2
  /\ session_on (@run_shaky) c t d o h (output_kind h) [v1; v2; v2] Finished {| y_out := empty_sink; y_plan := plan |} = (Ok ([Ok tt; Err ESink; Ok tt], Ok tt), y)
  /\ npy_new c {| cur_data := sk_data (y_out y); cur_pos := 0 |} = (Ok f, src) /\ h_shape (nf_header f) = [3]
  /\ exists r, npy_data c t f = DOk r /\ exists r1 r2 r3, nr_next c r = (Some (Ok v1), r1) /\ nr_next c r1 = (Some (Ok wrong), r2) /\ nr_next c r2 = (Some (Err EUnexpectedEof), r3).
Proof.
  exists le64, C76_t, C76_d, OrderC, OneDimensional, (XInt 1), (XInt 2), (XInt 0x202), (C76_until 7 (Some 1)). eexists _, _, _. split; [ discriminate | ]. split; [ discriminate | ].
  split; [ vm_compute; reflexivity | ]. split; [ vm_compute; reflexivity | ]. split; [ vm_compute; reflexivity | ].
  eexists. split; [ vm_compute; reflexivity | ]. eexists _, _, _. split; [ vm_compute; reflexivity | ]. split; [ vm_compute; reflexivity | ]. vm_compute. reflexivity.
Qed.
Print Assumptions C76_retry_refuted.
