(** C64: what a writer returns and leaves behind, on an output that takes everything. *)
From Verif Require Import M_Base M_Text M_TypeStr M_PyLit M_IO M_Header M_Read M_Serialize M_NpyReader M_Write.
From Verif Require Import S_Text S_TypeStr S_DType S_Shape S_Header S_Elem S_Strings S_Reader S_Write S_Reject S_DText S_File S_Fault S_Message S_Outcome P_Base P_Header P_Shape P_Elem P_Outcome T_Elem T_File.
Open Scope N_scope.

(** Any values pushed, whatever the pushes return, then [finish] or dropping the writer: results and bytes are those of S_Outcome.v, and no others. *)
Theorem C64_session_exactly : forall c t d o h vs e s r file, wf_dtype d -> strings_fit (c_usize_max c) d -> top_level d -> Forall (has_type t) vs -> lenN vs < 2 ^ 64 ->
  hint_ok h -> short_header d h -> sk_fuel s = None ->
  (exists s', session c t d o h (output_kind h) vs e s = (r, s') /\ placed (sk_data s) (sk_pos s) file (sk_data s') /\ sk_pos s' = sk_pos s + lenN file)
  <-> session_outcome (c_usize_max c) t d o h vs e r file.
Proof. exact session_iff. Qed.
Print Assumptions C64_session_exactly.
Theorem C64_session_total : forall c t d o h vs e s, wf_dtype d -> strings_fit (c_usize_max c) d -> top_level d -> Forall (has_type t) vs -> lenN vs < 2 ^ 64 ->
  hint_ok h -> short_header d h -> sk_fuel s = None ->
  exists r file s', session c t d o h (output_kind h) vs e s = (r, s') /\ session_outcome (c_usize_max c) t d o h vs e r file
  /\ placed (sk_data s) (sk_pos s) file (sk_data s') /\ sk_pos s' = sk_pos s + lenN file /\ sk_fuel s' = None.
Proof. exact session_exact. Qed.
Print Assumptions C64_session_total.

(** The same for writing a list of values at once, which stops at the first that cannot be stored. *)
Theorem C64_write_exactly : forall c t d o h vs s r file, wf_dtype d -> strings_fit (c_usize_max c) d -> top_level d -> Forall (has_type t) vs -> lenN vs < 2 ^ 64 ->
  hint_ok h -> short_header d h -> sk_fuel s = None ->
  (exists s', write_file c t d o h (output_kind h) vs s = (r, s') /\ placed (sk_data s) (sk_pos s) file (sk_data s') /\ sk_pos s' = sk_pos s + lenN file)
  <-> write_outcome (c_usize_max c) t d o h vs r file.
Proof. exact write_iff. Qed.
Print Assumptions C64_write_exactly.
Theorem C64_write_total : forall c t d o h vs s, wf_dtype d -> strings_fit (c_usize_max c) d -> top_level d -> Forall (has_type t) vs -> lenN vs < 2 ^ 64 ->
  hint_ok h -> short_header d h -> sk_fuel s = None ->
  exists r file s', write_file c t d o h (output_kind h) vs s = (r, s') /\ write_outcome (c_usize_max c) t d o h vs r file
  /\ placed (sk_data s) (sk_pos s) file (sk_data s') /\ sk_pos s' = sk_pos s + lenN file /\ sk_fuel s' = None.
Proof. exact write_outcome_exact. Qed.
Print Assumptions C64_write_total.

(** One result and one file for each use, the same on all machines of one word size. *)
Theorem C64_one_outcome : forall c t d o h vs e r1 f1 r2 f2, wf_dtype d -> strings_fit (c_usize_max c) d -> Forall (has_type t) vs ->
  session_outcome (c_usize_max c) t d o h vs e r1 f1 -> session_outcome (c_usize_max c) t d o h vs e r2 f2 -> r1 = r2 /\ f1 = f2.
Proof. exact session_unique. Qed.
Print Assumptions C64_one_outcome.

(** Three names of which the second is too long for its field: it is counted, but nothing of it is stored. *)
Definition C64_names : list val := [XStr [97; 98]; XStr [97; 98; 99; 100]; XStr [99]].
Definition C64_header (shape : string) (spaces : N) : bytes := [0x93] ++ lit "NUMPY" ++ [1; 0; 118; 0]
  ++ lit "{'descr': '|S3', 'fortran_order': False, 'shape': (" ++ lit shape ++ lit "), }" ++ repeatN 32 spaces ++ [10].
Definition C64_complaint : err := EData (lit "string has too many code units (4) for type-string '|S3'").
Example C64_case : let d := plain Irrelevant TByteStr 3 in
  wf_dtype d /\ strings_fit usize64 d /\ top_level d /\ Forall (has_type RString) C64_names /\ hint_ok OneDimensional /\ short_header d OneDimensional /\ short_header d (TwoDimensional 2)
  /\ session le64 RString d OrderC OneDimensional true C64_names Finished C58_sink
     = (Ok ([Ok tt; Err C64_complaint; Ok tt], Ok tt), {| sk_data := C64_header "3," 60 ++ [97; 98; 0; 99; 0; 0]; sk_pos := 134; sk_fuel := None |})
  /\ session le64 RString d OrderC (TwoDimensional 2) true C64_names Dropped C58_sink
     = (Ok ([Ok tt; Err C64_complaint; Ok tt], Ok tt), {| sk_data := C64_header "********************, 2" 39 ++ [97; 98; 0; 99; 0; 0]; sk_pos := 134; sk_fuel := None |})
  /\ write_file le64 RString d OrderC OneDimensional true C64_names C58_sink
     = (Err C64_complaint, {| sk_data := C64_header "2," 60 ++ [97; 98; 0]; sk_pos := 131; sk_fuel := None |}).
Proof.
  cbv zeta. split; [ wf_case | ]. split; [ vm_compute; intuition discriminate | ]. split; [ exact I | ]. split; [ repeat constructor | ]. split; [ exact I | ].
  split; [ vm_compute; discriminate | ]. split; [ vm_compute; discriminate | ]. split; [ vm_compute; reflexivity | ]. split; vm_compute; reflexivity.
Qed.
