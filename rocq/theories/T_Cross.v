(** C79: one file seen through different Rust types. *)
From Verif Require Import M_Base M_Text M_TypeStr M_PyLit M_IO M_Header M_Read M_Serialize M_NpyReader M_Write.
From Verif Require Import S_Text S_TypeStr S_DType S_Shape S_Header S_Elem S_Strings S_Reader S_Write S_DText S_Fault S_File S_Cross
  P_Base P_Header P_Elem P_Cross T_Elem.
Open Scope N_scope.

(** * Items *)
(** Two types that both read an item see the same contents, and take the same bytes. *)
Theorem C79_reads : forall c c' t t' d r r' input v v' rest rest', wf_dtype d -> reader c t d = DOk r -> reader c' t' d = DOk r' -> room t d -> room t' d -> bytes_ok input ->
  run (read_one c r) input = (Ok v, rest) -> run (read_one c' r') input = (Ok v', rest') -> same v v' /\ rest = rest'.
Proof. exact items_same. Qed.
Print Assumptions C79_reads.
(** What a type reads, a type that asks less of strings reads too. *)
Theorem C79_laxer : forall c c' t t' d r r' input v' rest, laxer t t' d -> wf_dtype d -> strings_fit (c_usize_max c) d -> reader c t d = DOk r -> reader c' t' d = DOk r' -> bytes_ok input ->
  run (read_one c' r') input = (Ok v', rest) -> exists v, run (read_one c r) input = (Ok v, rest).
Proof. exact laxer_reads. Qed.
Print Assumptions C79_laxer.
(** An item read with one type and written, with the same contents, with any other type gives back its bytes. *)
Theorem C79_copy_item : forall c c' t t' d r w input v v' rest, wf_dtype d -> strings_fit (c_usize_max c') d -> reader c t d = DOk r -> writer c' t' d = DOk w -> room t d -> bytes_ok input ->
  run (read_one c r) input = (Ok v, rest) -> has_type t' v' -> same v v' -> exists bs, write_one c' w v' = (bs, Ok tt) /\ input = bs ++ rest.
Proof. exact item_rewritten. Qed.
Print Assumptions C79_copy_item.
(** Values of the same contents are written as the same bytes, or neither is. *)
Theorem C79_writes : forall c c' t t' d w w' v v' bs, wf_dtype d -> strings_fit (c_usize_max c) d -> strings_fit (c_usize_max c') d -> writer c t d = DOk w -> writer c' t' d = DOk w' ->
  has_type t v -> has_type t' v' -> same v v' -> write_one c w v = (bs, Ok tt) <-> write_one c' w' v' = (bs, Ok tt).
Proof. exact writes_same. Qed.
Print Assumptions C79_writes.

(** * Files *)
Theorem C79_files : forall c c' t t' src f src' l l' src1 src2, bytes_ok (cur_data src) -> npy_new c src = (Ok f, src') -> room t (h_dtype (nf_header f)) -> room t' (h_dtype (nf_header f)) ->
  npy_into_vec c t f = (Ok l, src1) -> npy_into_vec c' t' f = (Ok l', src2) -> Forall2 same l l' /\ src1 = src2.
Proof. exact files_same. Qed.
Print Assumptions C79_files.
Theorem C79_file_laxer : forall c t t' src f src' l' src2, bytes_ok (cur_data src) -> npy_new c src = (Ok f, src') -> strings_fit (c_usize_max c) (h_dtype (nf_header f)) -> laxer t t' (h_dtype (nf_header f)) ->
  accepts (c_usize_max c) Reading t (h_dtype (nf_header f)) -> npy_into_vec c t' f = (Ok l', src2) -> exists l, npy_into_vec c t f = (Ok l, src2).
Proof. exact file_laxer. Qed.
Print Assumptions C79_file_laxer.
(** The data of a copy of any file at all, read with one type and written with another, is that of the original. *)
Theorem C79_copy : forall c c' t t' src f src' l l' src1 o h s s', bytes_ok (cur_data src) -> npy_new c src = (Ok f, src') -> room t (h_dtype (nf_header f)) -> npy_into_vec c t f = (Ok l, src1) ->
  Forall (has_type t') l' -> Forall2 same l l' -> hint_ok h -> write_file c' t' (h_dtype (nf_header f)) o h (output_kind h) l' s = (Ok tt, s') ->
  exists shape file, final_shape h o (h_n_records (nf_header f)) = Some shape
  /\ finished_file (h_dtype (nf_header f)) o h shape (takeN (h_n_records (nf_header f) * size (h_dtype (nf_header f))) (cur_rest (nf_src f))) file
  /\ placed (sk_data s) (sk_pos s) file (sk_data s').
Proof. exact copy_file. Qed.
Print Assumptions C79_copy.
(** It is written if the type can be written as the dtype, the header is not too long, the output works and the items fill the shape asked for. *)
Theorem C79_copy_succeeds : forall c c' t t' src f src' l l' src1 o h s, bytes_ok (cur_data src) -> npy_new c src = (Ok f, src') -> room t (h_dtype (nf_header f)) -> npy_into_vec c t f = (Ok l, src1) ->
  Forall (has_type t') l' -> Forall2 same l l' -> hint_ok h -> strings_fit (c_usize_max c') (h_dtype (nf_header f)) -> top_level (h_dtype (nf_header f)) ->
  accepts (c_usize_max c') Writing t' (h_dtype (nf_header f)) -> short_header (h_dtype (nf_header f)) h -> sk_fuel s = None -> final_shape h o (h_n_records (nf_header f)) <> None ->
  exists s', write_file c' t' (h_dtype (nf_header f)) o h (output_kind h) l' s = (Ok tt, s').
Proof. exact copy_succeeds. Qed.
Print Assumptions C79_copy_succeeds.
(** A copy, in the same order and with the same kind of writer, of a file npyz wrote is that file. *)
Theorem C79_copy_identical : forall c0 c c' t0 t t' d o h vs s0 s1 f src' l src1 l' s s', wf_dtype d -> Forall (has_type t0) vs -> lenN vs < 2 ^ 64 -> hint_ok h -> sk_data s0 = [] -> sk_pos s0 = 0 ->
  write_file c0 t0 d o h (output_kind h) vs s0 = (Ok tt, s1) -> sizes_fit (c_usize_max c) d ->
  npy_new c {| cur_data := sk_data s1; cur_pos := 0 |} = (Ok f, src') -> room t d -> npy_into_vec c t f = (Ok l, src1) ->
  Forall (has_type t') l' -> Forall2 same l l' -> sk_data s = [] -> sk_pos s = 0 -> write_file c' t' d o h (output_kind h) l' s = (Ok tt, s') -> sk_data s' = sk_data s1.
Proof. exact copy_identical. Qed.
Print Assumptions C79_copy_identical.

(** A record of a byte string, a string of code points and two numbers: written by one struct, read by a second one and written again by a third,
    on machines of either byte order. *)
Definition C79_dtype : dtype := DRecord [(lit "name", plain Little TByteStr 3); (lit "tag", plain Big TUnicodeStr 2); (lit "n", DArray 2 (plain Big TInt 2))].
Definition C79_first : rty := RStruct [(lit "name", RString); (lit "tag", RString); (lit "n", RArray 2 (RInt true W2))].
Definition C79_second : rty := RStruct [(lit "name", RVecU8); (lit "tag", RVecU32); (lit "n", RArray 2 (RInt true W2))].
Definition C79_third : rty := RStruct [(lit "name", RArrU8 8); (lit "tag", RArrString 9); (lit "n", RArray 2 (RInt true W2))].
Definition C79_vals : list val := [XRec [XStr [233]; XStr [120; 0x1F600]; XSeq [XInt (-1); XInt 258]]; XRec [XStr (lit "abc"); XStr []; XSeq [XInt 0; XInt 7]]].
Definition C79_seen : list val :=
  [XRec [XBytes [0xC3; 0xA9]; XUnits [120; 0x1F600]; XSeq [XInt (-1); XInt 258]]; XRec [XBytes (lit "abc"); XUnits []; XSeq [XInt 0; XInt 7]]].
Definition C79_rewritten : list val :=
  [XRec [XBytes [0xC3; 0xA9]; XStr [120; 0x1F600]; XSeq [XInt (-1); XInt 258]]; XRec [XBytes (lit "abc"); XStr []; XSeq [XInt 0; XInt 7]]].
Definition C79_sink : sink := {| sk_data := []; sk_pos := 0; sk_fuel := None |}.
Ltac same_case := repeat first [ apply same_value | eapply same_bytes; reflexivity | eapply same_units; reflexivity | apply same_struct | constructor ].
Example C79_case : exists s1 f src1 src2 src3 s2,
  wf_dtype C79_dtype /\ strings_fit usize64 C79_dtype /\ sizes_fit usize64 C79_dtype /\ room C79_first C79_dtype /\ room C79_second C79_dtype /\ laxer C79_second C79_first C79_dtype
  /\ Forall (has_type C79_first) C79_vals /\ Forall (has_type C79_third) C79_rewritten
  /\ write_file le64 C79_first C79_dtype OrderC OneDimensional true C79_vals C79_sink = (Ok tt, s1)
  /\ bytes_ok (sk_data s1)
  /\ npy_new be64 {| cur_data := sk_data s1; cur_pos := 0 |} = (Ok f, src1)
  /\ npy_into_vec be64 C79_first f = (Ok C79_vals, src2) /\ npy_into_vec be64 C79_second f = (Ok C79_seen, src3)
  /\ Forall2 same C79_vals C79_seen /\ Forall2 same C79_seen C79_rewritten
  /\ write_file be64 C79_third C79_dtype OrderC OneDimensional true C79_rewritten C79_sink = (Ok tt, s2)
  /\ sk_data s2 = sk_data s1.
Proof.
  do 6 eexists.
  split; [ wf_case | ]. split; [ vm_compute; repeat split; discriminate | ]. split; [ vm_compute; repeat split; discriminate | ].
  split; [ vm_compute; repeat split; discriminate | ]. split; [ vm_compute; repeat split; discriminate | ].
  split. { unfold C79_second, C79_first, C79_dtype. apply laxer_field; [ apply laxer_bytes; auto | ]. apply laxer_field; [ apply laxer_units; auto | ]. apply laxer_same. }
  split; [ repeat constructor; cbn; try lia; auto | ]. split; [ repeat constructor; cbn; try lia; auto | ].
  split; [ vm_compute; reflexivity | ]. split; [ apply Forall_forall; intros x Hx; vm_compute in Hx; repeat destruct Hx as [ <- | Hx ]; try reflexivity; destruct Hx | ].
  split; [ vm_compute; reflexivity | ]. split; [ vm_compute; reflexivity | ]. split; [ vm_compute; reflexivity | ].
  split; [ same_case | ]. split; [ same_case | ]. split; vm_compute; reflexivity.
Qed.
(** The capacities matter: text is cut to a smaller array, and raw data is filled up in a larger one. *)
Example C79_room_needed : exists r r' r2 r2', reader le64 RString (plain Irrelevant TByteStr 3) = DOk r /\ reader le64 (RArrString 2) (plain Irrelevant TByteStr 3) = DOk r'
  /\ ~ room (RArrString 2) (plain Irrelevant TByteStr 3)
  /\ run (read_one le64 r) (lit "abc") = (Ok (XStr (lit "abc")), []) /\ run (read_one le64 r') (lit "abc") = (Ok (XStr (lit "ab")), [])
  /\ reader le64 RVecU8 (plain Irrelevant TRawData 2) = DOk r2 /\ reader le64 (RArrU8 3) (plain Irrelevant TRawData 2) = DOk r2'
  /\ ~ room (RArrU8 3) (plain Irrelevant TRawData 2)
  /\ run (read_one le64 r2) [5; 6] = (Ok (XBytes [5; 6]), []) /\ run (read_one le64 r2') [5; 6] = (Ok (XBytes [5; 6; 0]), []).
Proof.
  do 4 eexists. split; [ reflexivity | ]. split; [ reflexivity | ]. split; [ cbn; lia | ]. split; [ reflexivity | ]. split; [ reflexivity | ].
  split; [ reflexivity | ]. split; [ reflexivity | ]. split; [ cbn; lia | ]. split; reflexivity.
Qed.
(** A stricter type fails where a laxer one reads: bytes that are not UTF-8, and code points that are surrogates. *)
Example C79_stricter : exists r r' e e', reader le64 RString (plain Irrelevant TByteStr 2) = DOk r /\ fst (run (read_one le64 r) [0xFF; 65]) = Err e
  /\ (exists q, reader le64 RVecU8 (plain Irrelevant TByteStr 2) = DOk q /\ run (read_one le64 q) [0xFF; 65] = (Ok (XBytes [0xFF; 65]), []))
  /\ reader le64 RVecChar (plain Big TUnicodeStr 1) = DOk r' /\ fst (run (read_one le64 r') [0; 0; 0xD8; 0]) = Err e'
  /\ (exists q, reader le64 RVecU32 (plain Big TUnicodeStr 1) = DOk q /\ run (read_one le64 q) [0; 0; 0xD8; 0] = (Ok (XUnits [0xD800]), [])).
Proof.
  do 4 eexists. split; [ reflexivity | ]. split; [ reflexivity | ]. split; [ eexists; split; reflexivity | ].
  split; [ reflexivity | ]. split; [ reflexivity | ]. eexists; split; reflexivity.
Qed.
