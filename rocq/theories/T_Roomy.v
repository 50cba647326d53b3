(** Theorems about types with a capacity. *)
From Coq Require Import String.
From Verif Require Import M_Base M_Text M_TypeStr M_IO M_Header M_Read M_Serialize M_DTypeErr M_NpyReader.
From Verif Require Import S_Text S_TypeStr S_DType S_Shape S_Header S_Elem S_Strings S_Reader S_Fault S_Roomy.
From Verif Require Import P_Base P_Header P_Elem P_Roomy T_Elem T_Reader.
Open Scope N_scope.

(** Any input gives the same value or error, and leaves the same rest. *)
Theorem C66_reads : forall c t t' d r r' input, roomy t t' d -> wf_dtype d -> strings_fit (c_usize_max c) d ->
  reader c t d = DOk r -> reader c t' d = DOk r' -> bytes_ok input -> run (read_one c r) input = run (read_one c r') input.
Proof. exact roomy_reads. Qed.
Print Assumptions C66_reads.
Theorem C66_accepts : forall c t t' d, roomy t t' d -> (exists r, reader c t d = DOk r) <-> (exists r', reader c t' d = DOk r').
Proof. exact (fun c t t' d H => iff_trans (reader_accepts c t d) (iff_trans (roomy_accepts (c_usize_max c) t t' d H) (iff_sym (reader_accepts c t' d)))). Qed.
Print Assumptions C66_accepts.
Theorem C66_file : forall c t t' src f src', bytes_ok (cur_data src) -> npy_new c src = (Ok f, src') -> strings_fit (c_usize_max c) (h_dtype (nf_header f)) ->
  roomy t t' (h_dtype (nf_header f)) -> accepts (c_usize_max c) Reading t (h_dtype (nf_header f)) -> npy_into_vec c t f = npy_into_vec c t' f.
Proof. exact roomy_file. Qed.
Print Assumptions C66_file.
(** Values are written in the same way, whatever the capacity; where the unlimited type is refused, so is the limited one. *)
Theorem C66_writes : forall c t t' d w w' v, unlimited t t' -> wf_dtype d -> strings_fit (c_usize_max c) d ->
  writer c t d = DOk w -> writer c t' d = DOk w' -> has_type t v -> write_one c w v = write_one c w' v.
Proof. exact unlimited_writes. Qed.
Print Assumptions C66_writes.
Theorem C66_written : forall c t t' d, unlimited t t' -> (exists w, writer c t d = DOk w) -> exists w', writer c t' d = DOk w'.
Proof. exact (fun c t t' d H Hw => proj2 (writer_accepts c t' d) (unlimited_accepted (c_usize_max c) t t' d H (proj1 (writer_accepts c t d) Hw))). Qed.
Print Assumptions C66_written.

(** The room is needed: in a smaller type some item reads differently. *)
Theorem C66_needed : forall c n t t' ts r r', cramped n t t' ts -> legal ts -> strings_fit (c_usize_max c) (DPlain ts) ->
  reader c t (DPlain ts) = DOk r -> reader c t' (DPlain ts) = DOk r' ->
  exists item, lenN item = size (DPlain ts) /\ bytes_ok item /\ run (read_one c r) item <> run (read_one c r') item.
Proof. exact room_needed. Qed.
Print Assumptions C66_needed.

Definition C66_small : rty := RStruct [(lit "name", RArray 2 (RArrString 4)); (lit "tag", RArrChar 1)].
Definition C66_large : rty := RStruct [(lit "name", RArray 2 RString); (lit "tag", RVecChar)].
Definition C66_dtype : dtype := DRecord [(lit "name", DArray 2 (plain Irrelevant TByteStr 3)); (lit "tag", plain Big TUnicodeStr 1)].
Example C66_case : roomy C66_small C66_large C66_dtype /\ unlimited C66_small C66_large /\ wf_dtype C66_dtype /\ strings_fit (c_usize_max le64) C66_dtype
  /\ (exists r r', reader le64 C66_small C66_dtype = DOk r /\ reader le64 C66_large C66_dtype = DOk r'
      /\ run (read_one le64 r) [97;0;0; 98;99;100; 0;0;0;120; 7] = (Ok (XRec [XSeq [XStr [97]; XStr [98;99;100]]; XUnits [120]]), [7]))
  /\ (exists w w', writer le64 C66_small C66_dtype = DOk w /\ writer le64 C66_large C66_dtype = DOk w')
  /\ cramped 2 (RArrString 2) RString {| ts_endianness := Irrelevant; ts_char := TByteStr; ts_size := 3; ts_units := None |}.
Proof.
  split; [ | split; [ | split; [ wf_case | split; [ vm_compute; repeat split; discriminate | split; [ | split ] ] ] ] ].
  - apply roomy_field; [ apply roomy_array, roomy_string; [ reflexivity | discriminate ] | ]. apply roomy_field; [ apply roomy_chars; discriminate | apply roomy_same ].
  - apply unlimited_field; [ apply unlimited_array, unlimited_string | ]. apply unlimited_field; [ apply unlimited_chars | apply unlimited_same ].
  - do 2 eexists. split; [ reflexivity | ]. split; [ reflexivity | ]. vm_compute. reflexivity.
  - do 2 eexists. split; reflexivity.
  - apply cramped_string; reflexivity.
Qed.
