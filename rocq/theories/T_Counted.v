(** C32, exactly: what finished files promise and store after failed pushes.  C58: the described files open. *)
From Verif Require Import M_Base M_Text M_TypeStr M_PyLit M_IO M_Header M_Read M_Serialize M_NpyReader M_Write.
From Verif Require Import S_Text S_TypeStr S_DType S_Shape S_Header S_Elem S_Strings S_Reader S_Write S_Reject S_DText S_File S_Fault S_Message S_Outcome P_Base P_Header P_Shape P_Elem P_Counted T_Elem T_Reader T_Write T_File.
Open Scope N_scope.

(** Every file of the description of C58 opens, on any machine where its items have a size, with that dtype, order and shape; its data follows. *)
Theorem C58_opens : forall d o h shape payload file, wf_dtype d -> top_level d -> Forall (fun n => n < 2 ^ 64) shape -> no_overflow shape ->
  finished_file d o h shape payload file -> file_with d o shape file payload.
Proof. exact finished_opens. Qed.
Print Assumptions C58_opens.

(** A finished file promises as many items as there were pushes.  It stores at most as many bytes as these items have, and exactly as many
    if and only if each failed push stored a whole item. *)
Theorem C32_exact : forall c t d o h vs s rs s', wf_dtype d -> strings_fit (c_usize_max c) d -> top_level d -> Forall (has_type t) vs -> lenN vs < 2 ^ 64 ->
  hint_ok h -> short_header d h -> sk_fuel s = None -> session c t d o h (output_kind h) vs Finished s = (Ok (rs, Ok tt), s') ->
  exists shape data file, final_shape h o (lenN vs) = Some shape /\ count shape = lenN vs /\ pushes t d vs rs data /\ finished_file d o h shape data file
  /\ placed (sk_data s) (sk_pos s) file (sk_data s') /\ file_with d o shape file data /\ bytes_ok file /\ lenN data <= lenN vs * size d
  /\ (lenN data = lenN vs * size d <-> forall v out msg, In v vs -> unstorable t d v out msg -> lenN out = size d).
Proof. exact counted. Qed.
Print Assumptions C32_exact.

(** Of the plain types only strings in fields of 32-bit units are stored, cut, by a push that fails. *)
Theorem C32_cut_strings : forall m t ts v out msg, accepts m Writing t (DPlain ts) -> 0 < ts_size ts -> unstorable t (DPlain ts) v out msg ->
  (lenN out = size (DPlain ts) <-> string_type t /\ ts_char ts = TUnicodeStr).
Proof. exact unstorable_whole. Qed.
Print Assumptions C32_cut_strings.

(** A file that lacks data is never read as a whole, whatever the type and the machine. *)
Theorem C32_short_file : forall c t d o shape file data f src' items, bytes_ok file -> file_with d o shape file data -> (exists n, num_bytes c d = Some n) ->
  strings_fit (c_usize_max c) d -> lenN data < count shape * size d -> npy_new c {| cur_data := file; cur_pos := 0 |} = (Ok f, src') -> fst (npy_into_vec c t f) <> Ok items.
Proof. exact short_file. Qed.
Print Assumptions C32_short_file.

(** Pushing "abc" to a field of two characters fails, and yet the finished file is whole and reads back with "ab" in its place. *)
Example C32_case : let d := plain Little TUnicodeStr 2 in let vs := [XStr [97; 98; 99]; XStr [100]] in
  wf_dtype d /\ strings_fit usize64 d /\ top_level d /\ Forall (has_type RString) vs /\ hint_ok OneDimensional /\ short_header d OneDimensional
  /\ exists e s' f src', session le64 RString d OrderC OneDimensional true vs Finished empty_sink = (Ok ([Err (EData e); Ok tt], Ok tt), s')
  /\ npy_new le64 {| cur_data := sk_data s'; cur_pos := 0 |} = (Ok f, src') /\ fst (npy_into_vec le64 RString f) = Ok [XStr [97; 98]; XStr [100]].
Proof.
  cbv zeta. split; [ wf_case | ]. split; [ vm_compute; intuition discriminate | ]. split; [ exact I | ]. split; [ repeat constructor | ]. split; [ exact I | ].
  split; [ vm_compute; discriminate | ]. eexists _, _, _, _. split; [ vm_compute; reflexivity | ]. split; [ vm_compute; reflexivity | ]. vm_compute; reflexivity.
Qed.
(** The file after which C32_refuted fails to read is short. *)
Example C32_short_case : let d := plain Irrelevant TByteStr 2 in exists e s', session le64 RVecU8 d OrderC OneDimensional true [XBytes [1; 2; 3]; XBytes [4; 5]] Finished empty_sink
  = (Ok ([Err (EData e); Ok tt], Ok tt), s') /\ lenN (sk_data s') = 128 + 2.
Proof. cbv zeta. eexists _, _. split; [ vm_compute; reflexivity | ]. vm_compute; reflexivity. Qed.
