(** C58: every byte of a finished file. *)
From Verif Require Import M_Base M_Text M_TypeStr M_PyLit M_IO M_Header M_Read M_Serialize M_NpyReader M_Write.
From Verif Require Import S_Text S_TypeStr S_DType S_Shape S_Header S_Elem S_Strings S_Reader S_Write S_DText S_File P_Base P_Header P_Shape P_Elem P_File T_Elem.
Open Scope N_scope.

(** A file that was written successfully is, byte for byte, the one S_File.v describes, placed where the output stood. *)
Theorem C58_file_exact : forall c t d o h vs s s', wf_dtype d -> Forall (has_type t) vs -> lenN vs < 2 ^ 64 -> hint_ok h ->
  write_file c t d o h (output_kind h) vs s = (Ok tt, s') ->
  exists shape payload file, final_shape h o (lenN vs) = Some shape /\ encodings t d vs payload /\ finished_file d o h shape payload file
  /\ placed (sk_data s) (sk_pos s) file (sk_data s').
Proof. exact file_exact. Qed.
Print Assumptions C58_file_exact.

(** The description leaves nothing open. *)
Theorem C58_unique : forall d o h shape payload f1 f2, wf_dtype d ->
  finished_file d o h shape payload f1 -> finished_file d o h shape payload f2 -> f1 = f2.
Proof. exact finished_unique. Qed.
Print Assumptions C58_unique.

(** Neither the machine's byte order and word size nor the build matters. *)
Theorem C58_machine_independent : forall c1 c2 t d o h vs s s1 s2, wf_dtype d -> Forall (has_type t) vs -> lenN vs < 2 ^ 64 -> hint_ok h ->
  write_file c1 t d o h (output_kind h) vs s = (Ok tt, s1) -> write_file c2 t d o h (output_kind h) vs s = (Ok tt, s2) -> sk_data s1 = sk_data s2.
Proof. exact machine_free. Qed.
Print Assumptions C58_machine_independent.

(** Equal files have equal dtypes, orders, shapes and encodings, whatever machines and kinds of writer made them. *)
Theorem C58_distinct : forall c c1 c2 t1 t2 d1 d2 o1 o2 h1 h2 vs1 vs2 s1 s2 s1' s2',
  wf_dtype d1 -> Forall (has_type t1) vs1 -> lenN vs1 < 2 ^ 64 -> hint_ok h1 -> wf_dtype d2 -> Forall (has_type t2) vs2 -> lenN vs2 < 2 ^ 64 -> hint_ok h2 ->
  sizes_fit (c_usize_max c) d1 -> sizes_fit (c_usize_max c) d2 ->
  write_file c1 t1 d1 o1 h1 (output_kind h1) vs1 s1 = (Ok tt, s1') -> write_file c2 t2 d2 o2 h2 (output_kind h2) vs2 s2 = (Ok tt, s2') ->
  sk_data s1 = [] -> sk_pos s1 = 0 -> sk_data s2 = [] -> sk_pos s2 = 0 -> sk_data s1' = sk_data s2' ->
  d1 = d2 /\ o1 = o2 /\ final_shape h1 o1 (lenN vs1) = final_shape h2 o2 (lenN vs2)
  /\ exists payload, encodings t1 d1 vs1 payload /\ encodings t2 d2 vs2 payload.
Proof. exact files_differ. Qed.
Print Assumptions C58_distinct.

(** Three pairs of big-endian numbers, growing: the same bytes from a 64-bit little-endian and a 32-bit machine; all of them. *)
Definition C58_vals : list val := [XInt 1; XInt 2; XInt 3; XInt 4; XInt 5; XInt 258].
Definition C58_sink : sink := {| sk_data := []; sk_pos := 0; sk_fuel := None |}.
Definition C58_bytes : bytes := [0x93] ++ lit "NUMPY" ++ [1; 0; 118; 0]
  ++ lit "{'descr': '>i2', 'fortran_order': False, 'shape': (3, 2), }" ++ repeatN 32 58 ++ [10] ++ [0; 1; 0; 2; 0; 3; 0; 4; 0; 5; 1; 2].
Example C58_case : let d := plain Big TInt 2 in exists s1 s2,
  wf_dtype d /\ Forall (has_type (RInt true W2)) C58_vals /\ hint_ok (TwoDimensional 2) /\ sizes_fit usize64 d
  /\ write_file le64 (RInt true W2) d OrderC (TwoDimensional 2) true C58_vals C58_sink = (Ok tt, s1)
  /\ write_file le32 (RInt true W2) d OrderC (TwoDimensional 2) true C58_vals C58_sink = (Ok tt, s2)
  /\ sk_data s1 = C58_bytes /\ sk_data s2 = C58_bytes.
Proof.
  eexists _, _. split; [ wf_case | ]. split; [ repeat constructor; cbn; lia | ]. split; [ reflexivity | ]. split; [ vm_compute; split; discriminate | ].
  split; [ vm_compute; reflexivity | ]. split; [ vm_compute; reflexivity | ]. split; vm_compute; reflexivity.
Qed.
