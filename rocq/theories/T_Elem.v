(** C16 to C26 and C44 to C46: single items. *)
From Verif Require Import M_Base M_Text M_TypeStr M_IO M_Header M_Read M_Serialize S_TypeStr S_DType S_Shape S_Header S_Text S_Elem S_Strings
  P_Base P_Text P_TypeStr P_IO P_Shape P_Header P_Number P_Elem P_ReadOne P_WriteOne P_Codec P_Sizes P_Default P_Strings P_ElemT.
Open Scope N_scope.

(** A little-endian and a big-endian 64-bit machine, and a 32-bit one. *)
Definition le64 : cfg := {| c_big := false; c_usize_max := usize64; c_ovf_panics := true |}.
Definition be64 : cfg := {| c_big := true; c_usize_max := usize64; c_ovf_panics := false |}.
Definition le32 : cfg := {| c_big := false; c_usize_max := usize32; c_ovf_panics := false |}.
Definition plain (e : endianness) (ch : type_char) (n : N) : dtype :=
  DPlain {| ts_endianness := e; ts_char := ch; ts_size := n; ts_units := None |}.
(** struct { id: u16, name: String, pos: [Complex<f32>; 2] } stored as big-endian. *)
Definition case_type : rty := RStruct [(lit "id", RInt false W2); (lit "name", RString); (lit "pos", RArray 2 (RComplex X4))].
Definition case_dtype : dtype := DRecord [(lit "id", plain Big TUint 2); (lit "name", plain Big TUnicodeStr 3); (lit "pos", DArray 2 (plain Big TComplex 8))].
Definition case_val : val := XRec [XInt 258; XStr [97; 0x1F600]; XSeq [XComplex 1 2; XComplex 3 4]].
Definition case_bytes : bytes := [1; 2] ++ [0;0;0;97; 0;1;0xF6;0; 0;0;0;0] ++ [0;0;0;1; 0;0;0;2; 0;0;0;3; 0;0;0;4].
Example case_ok : wf_dtype case_dtype /\ has_type case_type case_val /\ size case_dtype = 30 /\ survives case_type case_dtype case_val
  /\ (exists w, writer le64 case_type case_dtype = DOk w /\ write_one le64 w case_val = (case_bytes, Ok tt))
  /\ (exists w, writer be64 case_type case_dtype = DOk w /\ write_one be64 w case_val = (case_bytes, Ok tt))
  /\ (exists r, reader be64 case_type case_dtype = DOk r /\ run (read_one be64 r) (case_bytes ++ [9; 9]) = (Ok case_val, [9; 9])).
Proof.
  split; [ wf_case | ]. split; [ cbn; repeat split; try lia; repeat constructor; reflexivity | ]. split; [ reflexivity | ].
  split; [ cbn; repeat split; try (now apply no_final_zero_last); repeat constructor | ].
  split; [ eexists; split; reflexivity | ]. split; eexists; split; reflexivity.
Qed.

(** C16: a successful [read_one] consumes, and a successful [write_one] produces, exactly the item size, which is [num_bytes()]. *)
Theorem C16_read_consumes : forall c t d r input v rest, wf_dtype d -> reader c t d = DOk r -> bytes_ok input ->
  run (read_one c r) input = (Ok v, rest) ->
  exists item, input = item ++ rest /\ lenN item = size d /\ forall n, num_bytes c d = Some n -> lenN item = n.
Proof. exact read_consumes. Qed.
Print Assumptions C16_read_consumes.
Theorem C16_write_produces : forall c t d w v out, wf_dtype d -> writer c t d = DOk w -> has_type t v ->
  write_one c w v = (out, Ok tt) -> lenN out = size d /\ bytes_ok out /\ forall n, num_bytes c d = Some n -> lenN out = n.
Proof. exact write_produces. Qed.
Print Assumptions C16_write_produces.
(** No panic in either, as long as every string field fits into memory, and what is read is a value of the type. *)
Theorem C16_read_no_panic : forall c t d r input, wf_dtype d -> strings_fit (c_usize_max c) d -> reader c t d = DOk r -> bytes_ok input -> fst (run (read_one c r) input) <> Panic.
Proof. exact no_panic_read. Qed.
Print Assumptions C16_read_no_panic.
Theorem C16_write_no_panic : forall c t d w v, wf_dtype d -> strings_fit (c_usize_max c) d -> writer c t d = DOk w -> has_type t v -> snd (write_one c w v) <> Panic.
Proof. exact no_panic_write. Qed.
Print Assumptions C16_write_no_panic.
(** Otherwise there are panics: the dtype [|S9223372036854775808] is accepted on a 64-bit machine, but [vec![0; size]]
    (slice.rs:24 and 63) then panics with a capacity overflow, for reading whatever the input and for writing after the
    content has been written. *)
Definition S_huge : dtype := plain Irrelevant TByteStr (2 ^ 63).
Theorem C16_read_panics_refuted : exists c t d r, wf_dtype d /\ sizes_fit (c_usize_max c) d /\ reader c t d = DOk r
  /\ forall input, run (read_one c r) input = (Panic, input).
Proof.
  exists le64, RVecU8, S_huge. eexists. split; [ split; reflexivity | ]. split; [ split; discriminate | ]. split; [ reflexivity | ]. intros input. reflexivity.
Qed.
Print Assumptions C16_read_panics_refuted.
Theorem C16_write_panics_refuted : exists c t d w, wf_dtype d /\ sizes_fit (c_usize_max c) d /\ writer c t d = DOk w
  /\ has_type t (XBytes []) /\ write_one c w (XBytes []) = ([], Panic).
Proof.
  exists le64, RVecU8, S_huge. eexists. split; [ split; reflexivity | ]. split; [ split; discriminate | ]. split; [ reflexivity | ]. split; [ constructor | reflexivity ].
Qed.
Print Assumptions C16_write_panics_refuted.
Theorem C16_read_typed : forall c t d r input v rest, wf_dtype d -> reader c t d = DOk r -> bytes_ok input ->
  run (read_one c r) input = (Ok v, rest) -> has_type t v.
Proof. exact read_typed. Qed.
Print Assumptions C16_read_typed.
Example C16_case : num_bytes le64 case_dtype = Some 30 /\ lenN case_bytes = 30 /\ strings_fit usize64 case_dtype
  /\ strings_fit usize32 (plain Irrelevant TByteStr 1000000) /\ ~ strings_fit usize32 (plain Irrelevant TByteStr (2 ^ 31)).
Proof. do 2 (split; [ reflexivity | ]). split; [ cbn; auto | ]. split; [ discriminate | intros H; now apply H ]. Qed.

(** C17: the bytes written are those of [encode] (S_Elem.v), a definition that does not mention the machine. *)
Theorem C17_written : forall c t d w v out, wf_dtype d -> writer c t d = DOk w -> has_type t v ->
  write_one c w v = (out, Ok tt) -> encode t d v = Some out.
Proof. exact write_encode. Qed.
Print Assumptions C17_written.
Theorem C17_layout : forall c t d w v out, wf_dtype d -> strings_fit (c_usize_max c) d -> writer c t d = DOk w -> has_type t v ->
  write_one c w v = (out, Ok tt) <-> encode t d v = Some out.
Proof. exact (fun c t d w v out => write_exact c t d w v out). Qed.
Print Assumptions C17_layout.
Theorem C17_machines_agree : forall c c' t d w w' v, wf_dtype d -> strings_fit (c_usize_max c) d -> strings_fit (c_usize_max c') d -> writer c t d = DOk w -> writer c' t d = DOk w' -> has_type t v ->
  forall out, write_one c w v = (out, Ok tt) <-> write_one c' w' v = (out, Ok tt).
Proof. exact machines_agree. Qed.
Print Assumptions C17_machines_agree.
Theorem C17_readers_agree : forall c c' t d r r' input, wf_dtype d -> strings_fit (c_usize_max c) d -> strings_fit (c_usize_max c') d -> reader c t d = DOk r -> reader c' t d = DOk r' -> bytes_ok input ->
  forall v rest, run (read_one c r) input = (Ok v, rest) <-> run (read_one c' r') input = (Ok v, rest).
Proof. exact readers_agree. Qed.
Print Assumptions C17_readers_agree.
Example C17_case : encode case_type case_dtype case_val = Some case_bytes
  /\ encode (RInt true W4) (plain Little TInt 4) (XInt (-2)) = Some [0xFE; 0xFF; 0xFF; 0xFF]
  /\ encode (RInt true W4) (plain Big TInt 4) (XInt (-2)) = Some [0xFF; 0xFF; 0xFF; 0xFE]
  /\ encode (RFloat F8) (plain Big TFloat 8) (XFloat 0x3FF8000000000000) = Some [0x3F; 0xF8; 0; 0; 0; 0; 0; 0].
Proof. repeat split; reflexivity. Qed.

(** C18: what is written is read back, on any machine and whatever follows. *)
Theorem C18_read_written : forall c c' t d w r v out rest, wf_dtype d -> strings_fit (c_usize_max c') d -> writer c t d = DOk w -> reader c' t d = DOk r -> has_type t v ->
  write_one c w v = (out, Ok tt) -> run (read_one c' r) (out ++ rest) = (Ok (read_back t d v), rest).
Proof. exact read_written. Qed.
Print Assumptions C18_read_written.
Theorem C18_read_written_same : forall c c' t d w r v out rest, wf_dtype d -> strings_fit (c_usize_max c') d -> writer c t d = DOk w -> reader c' t d = DOk r -> has_type t v ->
  survives t d v -> write_one c w v = (out, Ok tt) -> run (read_one c' r) (out ++ rest) = (Ok v, rest).
Proof. exact read_written_same. Qed.
Print Assumptions C18_read_written_same.
Example C18_case : read_back case_type case_dtype case_val = case_val
  /\ read_back RVecU8 (plain Irrelevant TByteStr 4) (XBytes [1; 0; 2; 0]) = XBytes [1; 0; 2].
Proof. split; reflexivity. Qed.

(** C19: every byte pattern of a numeric item is a value that is written back as the same bytes. *)
Theorem C19_numeric_total : forall c c' t d r w item rest, wf_dtype d -> numeric t -> reader c t d = DOk r -> writer c' t d = DOk w ->
  lenN item = size d -> bytes_ok item ->
  exists v, has_type t v /\ run (read_one c r) (item ++ rest) = (Ok v, rest) /\ write_one c' w v = (item, Ok tt).
Proof. exact numeric_items. Qed.
Print Assumptions C19_numeric_total.
Theorem C19_numeric_injective : forall c t d r a b v resta restb, wf_dtype d -> numeric t -> reader c t d = DOk r ->
  lenN a = size d -> lenN b = size d -> bytes_ok a -> bytes_ok b ->
  run (read_one c r) (a ++ resta) = (Ok v, resta) -> run (read_one c r) (b ++ restb) = (Ok v, restb) -> a = b.
Proof. exact numeric_injective. Qed.
Print Assumptions C19_numeric_injective.
Theorem C19_bool : forall c d r b rest, wf_dtype d -> reader c RBool d = DOk r -> b < 256 ->
  (forall v, run (read_one c r) (b :: rest) = (Ok v, rest) <-> (b = 0 /\ v = XBool false) \/ (b = 1 /\ v = XBool true))
  /\ (1 < b -> exists e rest', run (read_one c r) (b :: rest) = (Err e, rest')).
Proof. exact bool_items. Qed.
Print Assumptions C19_bool.
Example C19_case : numeric (RArray 2 (RFloat F4)) /\ wf_dtype (DArray 2 (plain Big TFloat 4))
  /\ (exists r, reader le64 (RArray 2 (RFloat F4)) (DArray 2 (plain Big TFloat 4)) = DOk r)
  /\ (exists r, reader le64 RBool (plain Irrelevant TBool 1) = DOk r).
Proof. split; [ exact I | ]. split; [ wf_case | ]. split; eexists; reflexivity. Qed.

(** C20: the support matrix of S_Elem.v, for reading and for writing. *)
Theorem C20_reader_accepts : forall c t d, (exists r, reader c t d = DOk r) <-> accepts (c_usize_max c) Reading t d.
Proof. exact reader_accepts. Qed.
Print Assumptions C20_reader_accepts.
Theorem C20_writer_accepts : forall c t d, (exists w, writer c t d = DOk w) <-> accepts (c_usize_max c) Writing t d.
Proof. exact writer_accepts. Qed.
Print Assumptions C20_writer_accepts.
Example C20_case : accepts usize64 Reading case_type case_dtype
  /\ accepts usize64 Reading (RInt true W8) (DPlain {| ts_endianness := Little; ts_char := TDateTime; ts_size := 8; ts_units := Some Nanosecond |})
  /\ ~ accepts usize64 Reading (RArrString 5) (plain Little TUnicodeStr 5) /\ accepts usize64 Writing (RArrString 5) (plain Little TUnicodeStr 5)
  /\ ~ accepts usize32 Reading RString (plain Irrelevant TByteStr (2 ^ 32)) /\ accepts usize64 Reading RString (plain Irrelevant TByteStr (2 ^ 32)).
Proof.
  split; [ cbn; repeat split; auto; try discriminate; intros _; discriminate | ].
  split; [ cbn; repeat split; auto; discriminate | ]. split; [ cbn; intros ([ H | (_ & H) ] & _); discriminate | ].
  split; [ cbn; repeat split; auto; intros _; discriminate | ].
  split; [ cbn; intros (_ & H); specialize (H eq_refl); revert H; vm_compute; intuition | cbn; repeat split; auto; intros _; vm_compute; discriminate ].
Qed.

(** C21: writing strings.  [byte_content] and [unit_content] are what the value holds. *)
Theorem C21_write_byte_string : forall c t ts w v content out, legal ts -> 2 * ts_size ts <= c_usize_max c -> ts_char ts = TByteStr -> writer c t (DPlain ts) = DOk w -> has_type t v ->
  byte_content v = Some content ->
  write_one c w v = (out, Ok tt) <-> lenN content <= ts_size ts /\ out = content ++ repeatN 0 (ts_size ts - lenN content).
Proof. exact write_byte_string. Qed.
Print Assumptions C21_write_byte_string.
Theorem C21_write_raw : forall c t ts w v content out, legal ts -> 2 * ts_size ts <= c_usize_max c -> ts_char ts = TRawData -> writer c t (DPlain ts) = DOk w -> has_type t v ->
  byte_content v = Some content ->
  write_one c w v = (out, Ok tt) <-> lenN content = ts_size ts /\ out = content.
Proof. exact write_raw. Qed.
Print Assumptions C21_write_raw.
Theorem C21_write_unicode : forall c t ts w v us out, legal ts -> ts_char ts = TUnicodeStr -> writer c t (DPlain ts) = DOk w -> has_type t v ->
  unit_content v = Some us ->
  write_one c w v = (out, Ok tt) <->
  lenN us <= ts_size ts /\ Forall (unit_allowed t) us /\ out = flat_map (number (ts_endianness ts) 4) (us ++ repeatN 0 (ts_size ts - lenN us)).
Proof. exact write_unicode. Qed.
Print Assumptions C21_write_unicode.
(** Everything else is an error. *)
Theorem C21_write_fails : forall c t d w v, wf_dtype d -> strings_fit (c_usize_max c) d -> writer c t d = DOk w -> has_type t v ->
  (forall out, write_one c w v <> (out, Ok tt)) -> exists pre e, write_one c w v = (pre, Err e).
Proof.
  exact (fun c t d w v Hw Hf Hr Hv H => write_fails c t d w v Hw Hf Hr Hv
    (match encode t d v as o return (encode t d v = o -> o = None) with
     | Some bs => fun E => False_ind _ (H bs (proj2 (write_exact c t d w v bs Hw Hf Hr Hv) E))
     | None => fun _ => eq_refl
     end eq_refl)).
Qed.
Print Assumptions C21_write_fails.
Example C21_case :
  (exists w, writer le64 RString (plain Irrelevant TByteStr 4) = DOk w
    /\ write_one le64 w (XStr [0xE9; 97]) = ([0xC3; 0xA9; 97; 0], Ok tt) /\ exists p e, write_one le64 w (XStr [0xE9; 0xE9; 97]) = (p, Err e))
  /\ (exists w, writer le64 RVecU8 (plain Irrelevant TRawData 2) = DOk w
    /\ write_one le64 w (XBytes [7; 0]) = ([7; 0], Ok tt) /\ exists p e, write_one le64 w (XBytes [7]) = (p, Err e))
  /\ (exists w, writer le64 RVecU32 (plain Big TUnicodeStr 2) = DOk w
    /\ write_one le64 w (XUnits [0xD800]) = ([0; 0; 0xD8; 0; 0; 0; 0; 0], Ok tt) /\ exists p e, write_one le64 w (XUnits [0x110000]) = (p, Err e)).
Proof.
  split; [ | split ]; (eexists; split; [ reflexivity | ]; split; [ reflexivity | do 2 eexists; reflexivity ]).
Qed.

(** C22: reading strings.  [trimmed item l]: [l] is [item] without its trailing NULs, nothing else changed. *)
Theorem C22_read_bytes : forall c ts r item rest v, legal ts -> 2 * ts_size ts <= c_usize_max c -> ts_char ts = TByteStr -> reader c RVecU8 (DPlain ts) = DOk r ->
  lenN item = ts_size ts -> bytes_ok item -> run (read_one c r) (item ++ rest) = (Ok v, rest) <-> exists l, v = XBytes l /\ trimmed item l.
Proof. exact read_bytes. Qed.
Print Assumptions C22_read_bytes.
Theorem C22_read_raw : forall c ts r item rest v, legal ts -> 2 * ts_size ts <= c_usize_max c -> ts_char ts = TRawData -> reader c RVecU8 (DPlain ts) = DOk r ->
  lenN item = ts_size ts -> bytes_ok item -> run (read_one c r) (item ++ rest) = (Ok v, rest) <-> v = XBytes item.
Proof. exact read_raw. Qed.
Print Assumptions C22_read_raw.
Theorem C22_read_fixed : forall c ts r n item rest v, legal ts -> 2 * ts_size ts <= c_usize_max c -> reader c (RFixedBytes n) (DPlain ts) = DOk r ->
  lenN item = ts_size ts -> bytes_ok item -> run (read_one c r) (item ++ rest) = (Ok v, rest) <-> v = XBytes item.
Proof. exact read_fixed. Qed.
Print Assumptions C22_read_fixed.
Theorem C22_read_string : forall c ts r item rest v, legal ts -> 2 * ts_size ts <= c_usize_max c -> ts_char ts = TByteStr -> reader c RString (DPlain ts) = DOk r ->
  lenN item = ts_size ts -> bytes_ok item ->
  run (read_one c r) (item ++ rest) = (Ok v, rest) <-> exists s, v = XStr s /\ Forall (fun ch => scalar_value ch = true) s /\ trimmed item (utf8_string s).
Proof. exact read_str8. Qed.
Print Assumptions C22_read_string.
Theorem C22_read_unicode : forall c t ts r item rest v, t = RVecU32 \/ t = RVecChar \/ t = RString ->
  legal ts -> ts_char ts = TUnicodeStr -> reader c t (DPlain ts) = DOk r ->
  lenN item = 4 * ts_size ts -> bytes_ok item ->
  run (read_one c r) (item ++ rest) = (Ok v, rest) <->
  exists us l, item = flat_map (number (ts_endianness ts) 4) us /\ Forall (unit_allowed t) us /\ trimmed us l /\ unit_content v = Some l
    /\ has_type t v.
Proof. exact read_unicode. Qed.
Print Assumptions C22_read_unicode.
Example C22_case :
  trimmed [1; 0; 2; 0; 0] [1; 0; 2]
  /\ (exists r, reader le64 RVecU8 (plain Irrelevant TByteStr 5) = DOk r /\ run (read_one le64 r) [1; 0; 2; 0; 0; 9] = (Ok (XBytes [1; 0; 2]), [9]))
  /\ (exists r, reader le64 RString (plain Irrelevant TByteStr 2) = DOk r /\ run (read_one le64 r) [0xC3; 0xA9] = (Ok (XStr [0xE9]), [])
       /\ exists e rest, run (read_one le64 r) [0xC3; 0] = (Err e, rest))
  /\ (exists r, reader le64 RVecU32 (plain Big TUnicodeStr 1) = DOk r /\ run (read_one le64 r) [0; 0; 0xD8; 0] = (Ok (XUnits [0xD800]), []))
  /\ (exists r e rest, reader le64 RVecChar (plain Big TUnicodeStr 1) = DOk r /\ run (read_one le64 r) [0; 0; 0xD8; 0] = (Err e, rest)).
Proof.
  split; [ split; [ exists 2; reflexivity | now apply no_final_zero_last ] | ].
  split; [ eexists; split; reflexivity | ]. split; [ eexists; split; [ reflexivity | ]; split; [ reflexivity | do 2 eexists; reflexivity ] | ].
  split; [ eexists; split; reflexivity | ]. do 3 eexists; split; reflexivity.
Qed.

(** C23: bounded strings.  [ArrayString]: the longest prefix of whole characters that fits. *)
Theorem C23_array_string : forall c cap ts r item rest v, legal ts -> 2 * ts_size ts <= c_usize_max c -> reader c (RArrString cap) (DPlain ts) = DOk r ->
  lenN item = ts_size ts -> bytes_ok item ->
  run (read_one c r) (item ++ rest) = (Ok v, rest) <->
  exists full s, v = XStr s /\ Forall (fun ch => scalar_value ch = true) full /\ trimmed item (utf8_string full) /\ longest_prefix cap full s.
Proof. exact read_array_string. Qed.
Print Assumptions C23_array_string.
(** The [ArrayVec] types cut the item to the capacity and then trim. *)
Theorem C23_array_bytes : forall c cap ts r item rest v, legal ts -> 2 * ts_size ts <= c_usize_max c -> ts_char ts = TByteStr -> reader c (RArrU8 cap) (DPlain ts) = DOk r ->
  lenN item = ts_size ts -> bytes_ok item ->
  run (read_one c r) (item ++ rest) = (Ok v, rest) <-> exists l, v = XBytes l /\ trimmed (takeN cap item) l.
Proof. exact read_array_bytes. Qed.
Print Assumptions C23_array_bytes.
Theorem C23_array_units : forall c t cap ts r item rest v, t = RArrU32 cap \/ t = RArrChar cap -> legal ts -> reader c t (DPlain ts) = DOk r ->
  lenN item = 4 * ts_size ts -> bytes_ok item ->
  run (read_one c r) (item ++ rest) = (Ok v, rest) <->
  exists us l, item = flat_map (number (ts_endianness ts) 4) us /\ Forall (unit_allowed t) us /\ trimmed (takeN cap us) l /\ v = XUnits l.
Proof. exact read_array_units. Qed.
Print Assumptions C23_array_units.
(** That is the longest prefix of the content unless the cut falls just behind an interior NUL... *)
Theorem C23_cut_then_trim : forall cap item l full, trimmed (takeN cap item) l -> trimmed item full ->
  lenN full <= cap \/ no_final_zero (takeN cap full) -> first_elements cap full l.
Proof. exact cut_trim. Qed.
Print Assumptions C23_cut_then_trim.
(** ...and in that case it is not: content [a NUL b] read into capacity 2 gives [a], not [a NUL]. *)
Theorem C23_longest_prefix_refuted : exists c cap ts r item full v,
  legal ts /\ ts_char ts = TByteStr /\ reader c (RArrU8 cap) (DPlain ts) = DOk r /\ lenN item = ts_size ts /\ bytes_ok item /\ trimmed item full
  /\ run (read_one c r) item = (Ok (XBytes v), []) /\ ~ first_elements cap full v.
Proof.
  exists le64, 2, {| ts_endianness := Irrelevant; ts_char := TByteStr; ts_size := 3; ts_units := None |}. eexists. exists [97; 0; 98], [97; 0; 98], [97].
  split; [ split; reflexivity | ]. split; [ reflexivity | ]. split; [ reflexivity | ]. split; [ reflexivity | ]. split; [ repeat constructor | ].
  split; [ split; [ exists 0; reflexivity | now apply no_final_zero_last ] | ]. split; [ reflexivity | ].
  intros (_ & tail & H & [ -> | H' ]); discriminate.
Qed.
Print Assumptions C23_longest_prefix_refuted.
Example C23_case : exists r, reader le64 (RArrString 4) (plain Irrelevant TByteStr 6) = DOk r
  /\ run (read_one le64 r) [97; 0xC3; 0xA9; 0xC3; 0xA9; 0; 7] = (Ok (XStr [97; 0xE9]), [7]).
Proof. eexists; split; reflexivity. Qed.

(** C24: reading [|VM] into an [ArrayVec<u8, N>] gives the M bytes followed by N - M zeros, so exactly the stored bytes iff M = N. *)
Theorem C24_read_raw_partial : forall c cap ts r item rest v, legal ts -> 2 * ts_size ts <= c_usize_max c -> ts_char ts = TRawData -> reader c (RArrU8 cap) (DPlain ts) = DOk r ->
  lenN item = ts_size ts -> bytes_ok item ->
  run (read_one c r) (item ++ rest) = (Ok v, rest) <-> v = XBytes (item ++ repeatN 0 (cap - ts_size ts)).
Proof. exact read_array_raw. Qed.
Print Assumptions C24_read_raw_partial.
Theorem C24_read_raw_refuted : exists c cap ts r w item v,
  legal ts /\ ts_char ts = TRawData /\ reader c (RArrU8 cap) (DPlain ts) = DOk r /\ writer c (RArrU8 cap) (DPlain ts) = DOk w
  /\ lenN item = ts_size ts /\ bytes_ok item
  /\ run (read_one c r) item = (Ok v, []) /\ v <> XBytes item /\ exists e, write_one c w v = ([], Err e).
Proof.
  exists le64, 3, {| ts_endianness := Irrelevant; ts_char := TRawData; ts_size := 2; ts_units := None |}. do 2 eexists. exists [5; 6], (XBytes [5; 6; 0]).
  split; [ split; reflexivity | ]. do 4 (split; [ reflexivity | ]). split; [ repeat constructor | ]. split; [ reflexivity | ]. split; [ discriminate | ].
  eexists; reflexivity.
Qed.
Print Assumptions C24_read_raw_refuted.

(** C26: [num_bytes] is the mathematical size, exactly when no object occurs and no intermediate size exceeds [usize]. *)
Theorem C26_num_bytes : forall c d n, num_bytes c d = Some n <-> ~ has_object d /\ sizes_fit (c_usize_max c) d /\ n = size d.
Proof. exact num_bytes_exact. Qed.
Print Assumptions C26_num_bytes.
Theorem C26_open_too_big : forall c d shape o, ~ has_object d -> ~ sizes_fit (c_usize_max c) d -> forall h, from_parts c d shape o <> Ok h.
Proof. exact from_parts_too_big. Qed.
Print Assumptions C26_open_too_big.
Theorem C26_open_item_size : forall c d shape o h, from_parts c d shape o = Ok h -> ~ has_object d -> h_item_size h = Some (size d) /\ h_pickled h = false.
Proof. exact from_parts_item_size. Qed.
Print Assumptions C26_open_item_size.
Example C26_case : num_bytes le64 (DArray (2 ^ 33) (plain Big TUnicodeStr 3)) = Some (12 * 2 ^ 33)
  /\ num_bytes le32 (DArray (2 ^ 33) (plain Big TUnicodeStr 3)) = None
  /\ num_bytes le64 (plain Big TUnicodeStr (2 ^ 62)) = None
  /\ num_bytes le64 (DRecord [(lit "a", plain Irrelevant TObject 0)]) = None /\ has_object (DRecord [(lit "a", plain Irrelevant TObject 0)])
  (* a zero-length array of something too big is still refused *)
  /\ num_bytes le64 (DArray 0 (plain Big TUnicodeStr (2 ^ 62))) = None.
Proof. do 4 (split; [ reflexivity | ]). split; [ | reflexivity ]. eapply obj_field; [ left; reflexivity | ]. constructor. reflexivity. Qed.

(** C44: derived structs. *)
Theorem C44_reader_names : forall c fs d, (exists r, reader c (RStruct fs) d = DOk r) <->
  exists ds, d = DRecord ds /\ map fst ds = map fst fs /\ Forall2 (fun f g => exists r, reader c (snd f) (snd g) = DOk r) fs ds.
Proof. exact struct_reader_names. Qed.
Print Assumptions C44_reader_names.
Theorem C44_writer_names : forall c fs d, (exists w, writer c (RStruct fs) d = DOk w) <->
  exists ds, d = DRecord ds /\ map fst ds = map fst fs /\ Forall2 (fun f g => exists w, writer c (snd f) (snd g) = DOk w) fs ds.
Proof. exact struct_writer_names. Qed.
Print Assumptions C44_writer_names.
(** A struct is written as its fields one after the other. *)
Theorem C44_concatenation : forall c fs ds w vs out, wf_dtype (DRecord ds) -> strings_fit (c_usize_max c) (DRecord ds) -> writer c (RStruct fs) (DRecord ds) = DOk w -> has_type (RStruct fs) (XRec vs) ->
  write_one c w (XRec vs) = (out, Ok tt) <->
  exists parts, out = List.concat parts /\ lenN parts = lenN fs /\
    forall k name t d v part, nth_error fs k = Some (name, t) -> nth_error ds k = Some (name, d) -> nth_error vs k = Some v -> nth_error parts k = Some part ->
    exists w', writer c t d = DOk w' /\ write_one c w' v = (part, Ok tt).
Proof. exact struct_concat. Qed.
Print Assumptions C44_concatenation.
Definition C44_type : rty := RStruct [(lit "x", RArrString 3); (lit "y", RArray 2 (RStruct [(lit "z", RFloat F8)]))].
Example C44_case : exists d, default_dtype be64 C44_type = Some (Ok d)
  /\ d = DRecord [(lit "x", plain Irrelevant TByteStr 3); (lit "y", DArray 2 (DRecord [(lit "z", plain Big TFloat 8)]))]
  /\ exists r w, reader be64 C44_type d = DOk r /\ writer be64 C44_type d = DOk w.
Proof. eexists. split; [ reflexivity | ]. split; [ reflexivity | ]. do 2 eexists. split; reflexivity. Qed.

(** C45: [WrongFields expected actual] carries the file's names as expected and the struct's as actual. *)
Theorem C45_swapped : forall c fs ds, map fst ds <> map fst fs ->
  reader c (RStruct fs) (DRecord ds) = DErr (WrongFields (map fst ds) (map fst fs))
  /\ writer c (RStruct fs) (DRecord ds) = DErr (WrongFields (map fst ds) (map fst fs)).
Proof. exact fields_mismatch. Qed.
Print Assumptions C45_swapped.
Theorem C45_sides_refuted : exists c fs ds expected actual,
  reader c (RStruct fs) (DRecord ds) = DErr (WrongFields expected actual) /\ expected <> map fst fs /\ actual <> map fst ds.
Proof.
  exists le64, [(lit "a", RBool)], [(lit "b", plain Irrelevant TBool 1)]. do 2 eexists. split; [ reflexivity | ]. split; discriminate.
Qed.
Print Assumptions C45_sides_refuted.
(** Fields in another order, one more, one less. *)
Example C45_case : let b := plain Irrelevant TBool 1 in Forall (fun ds => map fst ds <> map fst [(lit "a", RBool); (lit "b", RBool)])
  [[(lit "b", b); (lit "a", b)]; [(lit "a", b); (lit "b", b); (lit "c", b)]; [(lit "a", b)]; []].
Proof. cbn zeta. repeat (constructor; [ discriminate | ]). constructor. Qed.

(** C46: default dtypes. *)
Theorem C46_default : forall c t, wf_cfg c -> has_default (c_usize_max c) t ->
  exists d, default_dtype c t = Some (Ok d) /\ wf_dtype d /\ all_orders (of_machine c) d
  /\ (exists r, reader c t d = DOk r)
  /\ exists w, writer c t d = DOk w /\ forall v, has_type t v -> units_ok v -> exists out, write_one c w v = (out, Ok tt).
Proof. exact default_accepted. Qed.
Print Assumptions C46_default.
Example C46_case : has_default usize64 C44_type /\ wf_cfg be64.
Proof. split; [ cbn; repeat split; repeat constructor; discriminate | now left ]. Qed.
