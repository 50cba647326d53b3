(** C82: writers through a BufWriter to outputs whose calls fail now and then. *)
From Verif Require Import M_Base M_Text M_TypeStr M_PyLit M_IO M_Header M_Read M_Serialize M_NpyReader M_Write M_Buffered M_Shaky M_Spill.
From Verif Require Import S_Text S_TypeStr S_DType S_Shape S_Header S_Elem S_Strings S_Reader S_Write S_Reject S_DText S_File S_Fault S_Message S_Outcome S_Shaky S_Spill
  P_Base P_Header P_Shape P_Elem P_Spill T_Elem T_Reader T_Write T_File T_Shaky.
Open Scope N_scope.

(** Whichever calls fail, however large the buffer is and however items are divided: results and bytes are among those of S_Spill.v. *)
Theorem C82_sound : forall cap cuts c t d o h vs e s plan, wf_dtype d -> strings_fit (c_usize_max c) d -> top_level d -> Forall (has_type t) vs -> lenN vs < 2 ^ 64 ->
  hint_ok h -> short_header d h -> sk_fuel s = None -> sk_pos s <= lenN (sk_data s) ->
  exists r s' file, spilling_session cap cuts c t d o h (output_kind h) vs e {| y_out := s; y_plan := plan |} = (r, s')
  /\ spilled_outcome (c_usize_max c) t d o h vs e r file /\ placed (sk_data s) (sk_pos s) file (sk_data s').
Proof. exact spill_sound. Qed.
Print Assumptions C82_sound.

(** All pushes and [finish] returned [Ok]: nothing is left in the buffer, the file is there, byte for byte. *)
Theorem C82_success : forall cap cuts c t d o h vs s plan rs s', wf_dtype d -> strings_fit (c_usize_max c) d -> top_level d -> Forall (has_type t) vs -> lenN vs < 2 ^ 64 ->
  hint_ok h -> short_header d h -> sk_fuel s = None -> sk_pos s <= lenN (sk_data s) ->
  spilling_session cap cuts c t d o h (output_kind h) vs Finished {| y_out := s; y_plan := plan |} = (Ok (rs, Ok tt), s') -> Forall (eq (Ok tt)) rs ->
  exists shape payload file, final_shape h o (lenN vs) = Some shape /\ encodings t d vs payload /\ finished_file d o h shape payload file
  /\ placed (sk_data s) (sk_pos s) file (sk_data s').
Proof. exact spill_success. Qed.
Print Assumptions C82_success.

(** If a push failed, the finished file lacks data and no reader reads it as a whole. *)
Theorem C82_never_whole : forall cap cuts c c' t t' d o h vs plan rs s' f src' items, wf_dtype d -> strings_fit (c_usize_max c) d -> strings_fit (c_usize_max c') d -> top_level d ->
  Forall (has_type t) vs -> lenN vs < 2 ^ 64 -> hint_ok h -> short_header d h -> (exists n, num_bytes c' d = Some n) ->
  spilling_session cap cuts c t d o h (output_kind h) vs Finished {| y_out := empty_sink; y_plan := plan |} = (Ok (rs, Ok tt), s') -> In (Err ESink) rs ->
  npy_new c' {| cur_data := sk_data s'; cur_pos := 0 |} = (Ok f, src') -> fst (npy_into_vec c' t' f) <> Ok items.
Proof. exact spill_short. Qed.
Print Assumptions C82_never_whole.

(** If no push failed then, whatever happened at the beginning and at the end and to what was still in the buffer, the file is refused or read as what was pushed. *)
Theorem C82_never_mistaken : forall cap cuts c c' t d o h vs e D plan r s', wf_dtype d -> strings_fit (c_usize_max c) d -> top_level d -> Forall (has_type t) vs -> lenN vs < 2 ^ 64 ->
  hint_ok h -> short_header d h -> unmistakable o h (lenN vs) -> (exists n, num_bytes c' d = Some n) ->
  spilling_session cap cuts c t d o h (output_kind h) vs e {| y_out := {| sk_data := D; sk_pos := lenN D; sk_fuel := None |}; y_plan := plan |} = (r, s') ->
  (forall rs r', r = Ok (rs, r') -> Forall (eq (Ok tt)) rs) -> whole_or_error c' t d o h vs (sk_data s') (lenN D).
Proof. exact spill_safe. Qed.
Print Assumptions C82_never_mistaken.

(** Items written in one piece and smaller than the buffer: a push that fails leaves nothing of its item, the data are the items of the other pushes.  (The header counts all pushes.) *)
Theorem C82_no_pieces : forall cap cuts c t d o h vs e s plan rs r s', wf_dtype d -> strings_fit (c_usize_max c) d -> top_level d -> Forall (has_type t) vs -> lenN vs < 2 ^ 64 ->
  hint_ok h -> short_header d h -> sk_fuel s = None -> sk_pos s <= lenN (sk_data s) ->
  (forall v, In v vs -> exists b, encode t d v = Some b) -> size d < cap -> (forall i, cuts i = []) ->
  spilling_session cap cuts c t d o h (output_kind h) vs e {| y_out := s; y_plan := plan |} = (Ok (rs, r), s') ->
  exists data file, encodings t d (stored vs rs) data /\ spilled_ends d o h (lenN vs) data e r file /\ placed (sk_data s) (sk_pos s) file (sk_data s').
Proof. exact spill_clean. Qed.
Print Assumptions C82_no_pieces.

(** A buffer of no size is no buffer (C76); and as long as no call fails, nothing shows that there is one. *)
Theorem C82_unbuffered : forall cuts c t d o h k vs e y, (forall i, cuts i = []) ->
  spilling_session 0 cuts c t d o h k vs e y = (let '(r, y') := session_on (@run_shaky) c t d o h k vs e y in (r, y_out y')).
Proof. exact spill_unbuffered. Qed.
Print Assumptions C82_unbuffered.
Theorem C82_untroubled : forall cap cuts c t d o h k vs e s plan, sk_fuel s = None -> Forall (eq None) plan ->
  spilling_session cap cuts c t d o h k vs e {| y_out := s; y_plan := plan |} = session c t d o h k vs e s.
Proof. exact spill_untroubled. Qed.
Print Assumptions C82_untroubled.

(** * Cases *)
Definition C82_run (cap : N) (cuts : N -> list N) (e : ending) (plan : list (option N)) : res (list (res unit) * res unit) * bytes :=
  let '(r, s) := spilling_session cap cuts le64 C76_t C76_d OrderC OneDimensional true C76_vals e {| y_out := empty_sink; y_plan := plan |} in (r, sk_data s).
Definition C82_whole : bytes := C76_header "2," 60 ++ [1; 0; 2; 0].
Definition C82_none (_ : N) : list N := [].
(** The buffer of std.  The calls that reach the output: a question for the position; then, at the end, a write of all that waits, question, move, a write of the new header, move, flush.
    The write fails after 3 bytes: [finish] returns the error, dropping the writer writes the rest.  It fails also there, after 4 more bytes, and so does dropping the buffer: 7 bytes.
    The same without [finish]: no call returned an error.  The write of the new header fails. *)
Example C82_case : wf_dtype C76_d /\ strings_fit usize64 C76_d /\ top_level C76_d /\ Forall (has_type C76_t) C76_vals /\ hint_ok OneDimensional /\ short_header C76_d OneDimensional
  /\ unmistakable OrderC OneDimensional 2
  /\ C82_run 8192 C82_none Finished [] = (Ok ([Ok tt; Ok tt], Ok tt), C82_whole)
  /\ C82_run 8192 C82_none Finished [None; Some 3] = (Ok ([Ok tt; Ok tt], Err ESink), C82_whole)
  /\ C82_run 8192 C82_none Finished [None; Some 3; Some 4; Some 0] = (Ok ([Ok tt; Ok tt], Err ESink), [0x93] ++ lit "NUMPY" ++ [1])
  /\ C82_run 8192 C82_none Dropped [None; Some 7; Some 0] = (Ok ([Ok tt; Ok tt], Ok tt), [0x93] ++ lit "NUMPY" ++ [1])
  /\ C82_run 8192 C82_none Dropped [None; None; None; None; Some 1; Some 1] = (Ok ([Ok tt; Ok tt], Ok tt), C76_header "2,******************," 41 ++ [1; 0; 2; 0]).
Proof.
  split; [ wf_case | ]. split; [ vm_compute; intuition discriminate | ]. split; [ exact I | ]. split; [ repeat constructor; vm_compute; intuition discriminate | ]. split; [ exact I | ].
  split; [ vm_compute; discriminate | ]. split; [ exact I | ]. repeat apply conj; vm_compute; reflexivity.
Qed.
(** A buffer of 3 bytes.  Calls: question; the 6 bytes before the version (in two writes: what waits, and the 5 that are too many); the version waits; the length of the text does not fit beside it;
    and so on.  The second push fails as the first item cannot be written: nothing is left of the second item, and the file promises two. *)
Definition C82_until (k : nat) (x : option N) : list (option N) := repeat None k ++ [x].
Example C82_no_pieces_case : (forall v, In v C76_vals -> exists b, encode C76_t C76_d v = Some b) /\ size C76_d < 3 /\ (forall i, C82_none i = [])
  /\ C82_run 3 C82_none Finished (C82_until 6 (Some 1)) = (Ok ([Ok tt; Err ESink], Ok tt), C76_header "2," 60 ++ [1; 0])
  /\ stored C76_vals [Ok tt; Err ESink] = [XInt 1]
  (** in two pieces: one byte of the second item *)
  /\ C82_run 3 (fun _ => [1]) Finished (C82_until 6 (Some 0)) = (Ok ([Ok tt; Err ESink], Ok tt), C76_header "2," 60 ++ [1; 0; 2]).
Proof.
  split; [ | split; [ vm_compute; reflexivity | split; [ reflexivity | repeat apply conj; vm_compute; reflexivity ] ] ].
  intros v [ <- | [ <- | [] ] ]; eexists; vm_compute; reflexivity.
Qed.

(** One would expect: if no call of the writer returned an error, the data are in the file.  Without [finish] they may all be lost: what waits in the buffer is written while writer and
    buffer are dropped, where errors go unheard. *)
Theorem C82_silence_refuted : exists cap c t d o h vs plan s, vs <> []
  /\ spilling_session cap (fun _ => []) c t d o h (output_kind h) vs Dropped {| y_out := empty_sink; y_plan := plan |} = (Ok (map (fun _ => Ok tt) vs, Ok tt), s) /\ sk_data s = [].
Proof.
  exists 8192, le64, C76_t, C76_d, OrderC, OneDimensional, C76_vals, [None; Some 0; Some 0]. eexists. split; [ discriminate | ]. split; [ vm_compute; reflexivity | ]. reflexivity.
Qed.
Print Assumptions C82_silence_refuted.
