(** C80: headers read with any parser of Python literals. *)
From Verif Require Import M_Base M_Text M_TypeStr M_TypeErr M_PyLit M_IO M_Header M_Read M_Serialize M_NpyReader M_Write M_Literal.
From Verif Require Import S_Text S_TypeStr S_Python S_DType S_Shape S_Header S_Elem S_Strings S_Dict S_Open S_Write S_File S_Literal
  P_Base P_Header P_Elem P_Grammar P_Whole P_Literal T_Elem.
Open Scope N_scope.

(** * Any parser at all *)
(** What opens, and with which numbers. *)
Theorem C80_opens_exactly : forall p c input h rest, Forall (fun b => b < 256) input ->
  run (open_with p c) input = (Ok h, rest) <->
  exists pre txt src v d shape o, input = pre ++ rest /\ preamble_of pre txt /\ given txt src /\ p src = Parsed v /\ lit_header_says v d shape o
    /\ no_overflow_met c shape o /\ countable c d /\ numbers c d shape o h.
Proof. exact with_opens. Qed.
Print Assumptions C80_opens_exactly.
(** Nothing panics but the parser, and products of sizes in builds that check for overflow. *)
Theorem C80_panics_exactly : forall p c input, Forall (fun b => b < 256) input ->
  fst (run (open_with p c) input) = Panic <->
  exists pre txt src rest, input = pre ++ rest /\ preamble_of pre txt /\ given txt src
    /\ (p src = Crashed \/ exists v d shape o, p src = Parsed v /\ lit_header_says v d shape o /\ overflow_panic c d shape o).
Proof. exact with_panics. Qed.
Print Assumptions C80_panics_exactly.
(** A text the parser refuses is reported with its explanation. *)
Theorem C80_refused : forall p c pre txt rest src why, Forall (fun b => b < 256) (pre ++ rest) -> preamble_of pre txt -> given txt src -> p src = Refused why ->
  run (open_with p c) (pre ++ rest) = (Err (EData (lit "could not parse Python expression: " ++ why)), rest).
Proof. intros p c pre txt rest src why Hb Hp Hg E. now rewrite (with_text p c pre txt rest src Hb Hp Hg), E. Qed.
Print Assumptions C80_refused.
(** [NpyFile::new] at any place of a stream: the result is that of reading the header there, and the stream is left where reading stopped. *)
Theorem C80_new : forall p c src r src' r' rest, npy_new_with p c src = (r, src') -> run (open_with p c) (dropN (cur_pos src) (cur_data src)) = (r', rest) ->
  cur_data src' = cur_data src /\ dropN (cur_pos src') (cur_data src') = rest /\ cur_pos src <= cur_pos src'
  /\ match r' with Ok h => r = Ok {| nf_header := h; nf_src := src' |} | Err e => r = Err e | Panic => r = Panic end.
Proof. intros p c src r src' r' rest E E'. pose proof (new_with_place p c src) as H. rewrite E, E' in H. exact H. Qed.
Print Assumptions C80_new.
(** Bytes, floats and complex numbers are treated as [None] wherever they are, errors and their messages included. *)
Theorem C80_others_as_none : forall c v, lit_interpret c v = interpret_header c (none_for_others v).
Proof. exact interpret_none. Qed.
Print Assumptions C80_others_as_none.
(** [DType::parse]. *)
Theorem C80_dtype_parse : forall p src line d, Forall (fun ch => scalar_value ch = true) src -> src = line ++ [10] \/ (src = line /\ forall s, src <> s ++ [10]) ->
  (dtype_parse_with p src = Ok d <-> exists v, p line = Parsed v /\ lit_describes v d) /\ (dtype_parse_with p src = Panic <-> p line = Crashed).
Proof.
  intros p src line d Hs Hl. rewrite (dtype_with p src line Hs Hl). destruct (p line) as [ v | why | ].
  - split; [ rewrite dtype_with_ok; split; [ eauto | now intros (? & [= <-] & ?) ] | ]. split; [ intros H; now apply dtype_with_panic in H | discriminate ].
  - split; split; try discriminate. now intros (? & ? & _).
  - split; split; try discriminate; try reflexivity. now intros (? & ? & _).
Qed.
Print Assumptions C80_dtype_parse.
(** If its strings are Rust strings, the header is well formed. *)
Theorem C80_well_formed : forall p c input h rest, rust_strings p -> Forall (fun b => b < 256) input -> run (open_with p c) input = (Ok h, rest) ->
  wf_dtype (h_dtype h) /\ top_level (h_dtype h) /\ Forall (fun n => n < 2 ^ 64) (h_shape h).
Proof. exact opened_with. Qed.
Print Assumptions C80_well_formed.

(** * Parsers that understand the literals of S_Python.v *)
(** For files whose header is such a literal (or that have no header text) the parser makes no difference. *)
Theorem C80_same : forall p c input, understands p -> Forall (fun b => b < 256) input ->
  (forall pre txt rest src, input = pre ++ rest -> preamble_of pre txt -> given txt src -> exists v, python_literal src v) ->
  run (open_with p c) input = run (read_and_interpret c) input.
Proof. exact with_same. Qed.
Print Assumptions C80_same.
(** So whatever opens in the model opens with any such parser, as the same file, and so all that is proved of opened files holds of it; *)
Theorem C80_opens : forall p c src f src', understands p -> bytes_ok (cur_data src) -> npy_new c src = (Ok f, src') -> npy_new_with p c src = (Ok f, src').
Proof. exact new_with. Qed.
Print Assumptions C80_opens.
Theorem C80_panics : forall p c input, understands p -> Forall (fun b => b < 256) input ->
  fst (run (read_and_interpret c) input) = Panic -> fst (run (open_with p c) input) = Panic.
Proof. exact with_panic. Qed.
Print Assumptions C80_panics.
(** in particular the files npyz writes. *)
Theorem C80_reads_back : forall p c c' t d o h vs s s', understands p -> wf_dtype d -> Forall (has_type t) vs -> bytes_ok (sk_data s) ->
  write_file c t d o h (output_kind h) vs s = (Ok tt, s') ->
  forall shape ws, reads_as c' t (sk_data s') (sk_pos s) d o shape ws -> reads_with p c' t (sk_data s') (sk_pos s) d o shape ws.
Proof. exact written_with. Qed.
Print Assumptions C80_reads_back.
Theorem C80_round_trip : forall p c c' t d o vs s s', understands p -> wf_dtype d -> Forall (has_type t) vs -> lenN vs < 2 ^ 64 -> bytes_ok (sk_data s) ->
  write_file c t d o OneDimensional true vs s = (Ok tt, s') ->
  accepts (c_usize_max c') Reading t d -> sizes_fit (c_usize_max c') d -> strings_fit (c_usize_max c') d ->
  reads_with p c' t (sk_data s') (sk_pos s) d o [lenN vs] (map (read_back t d) vs).
Proof.
  intros p c c' t d o vs s s' Hu Hw Hv Hn Hb H Ha Hz Hs. apply (written_with p c c' t d o OneDimensional vs s s'); auto.
  now apply (growing_1d_round_trip c c' t d o vs s s').
Qed.
Print Assumptions C80_round_trip.

(** A parser that knows, beyond the grammar, one text with a hexadecimal number and a float. *)
Definition C80_text : text := lit "{'descr': '<i2', 'fortran_order': False, 'shape': (0x2,), 'scale': 1.5}".
Definition C80_parser : parser := fun src =>
  match parse_literal src with
  | Some v => Parsed (as_literal v)
  | None =>
    if eqb_list src C80_text
    then Parsed (LDict [(LString (lit "descr"), LString (lit "<i2")); (LString (lit "fortran_order"), LBool false); (LString (lit "shape"), LTuple [LInteger 2]);
                        (LString (lit "scale"), LFloat 0x3FF8000000000000)])
    else Refused (lit "what?")
  end.
Definition C80_file (txt : text) : bytes := 0x93 :: lit "NUMPY" ++ [1; 0; 72; 0] ++ txt ++ [10].
Example C80_case : understands C80_parser
  /\ (exists h, run (open_with C80_parser le64) (C80_file C80_text ++ [1; 0; 2; 0]) = (Ok h, [1; 0; 2; 0]) /\ h_dtype h = plain Little TInt 2 /\ h_shape h = [2])
  /\ (exists e, run (read_and_interpret le64) (C80_file C80_text ++ [1; 0; 2; 0]) = (Err e, [1; 0; 2; 0]))
  /\ (exists h, run (open_with C80_parser le64) (C80_file (lit "{'descr': '<i2', 'fortran_order': False, 'shape': (2,), 'scale': '1.5'}")) = (Ok h, []) /\ h_shape h = [2])
  /\ run (open_with C80_parser le64) (C80_file (lit "{'descr': b'i2', 'fortran_order': False, 'shape': (2,), 'scale': '1.5'}"))
     = (Err (EData (lit "could not parse Python expression: what?")), []).
Proof.
  split. { intros src v H. unfold C80_parser. now rewrite (parse_complete src v H). }
  split; [ eexists; split; [ vm_compute; reflexivity | split; reflexivity ] | ]. split; [ eexists; vm_compute; reflexivity | ].
  split; [ eexists; split; [ vm_compute; reflexivity | reflexivity ] | ]. vm_compute. reflexivity.
Qed.
