(** C60 and C61: values that cannot be stored, items that cannot be read. *)
From Verif Require Import M_Base M_Text M_TypeStr M_IO M_Header M_Serialize S_TypeStr S_TypeErr S_DType S_Shape S_Header S_Text S_Elem S_Fault
  P_Base P_Text P_TypeStr P_TypeErr P_IO P_Shape P_Header P_Number P_Elem P_ReadOne P_WriteOne P_Fault T_Text T_Elem.
Open Scope N_scope.

(** C60: [write_one] fails exactly on the values that are [unstorable], with the message given there and after the bytes given there. *)
Theorem C60_unstorable_exact : forall c t d w v out e, wf_dtype d -> strings_fit (c_usize_max c) d -> writer c t d = DOk w -> has_type t v ->
  write_one c w v = (out, Err e) <-> exists msg, e = EData msg /\ unstorable t d v out msg.
Proof. exact unstorable_exact. Qed.
Print Assumptions C60_unstorable_exact.
(** With strings of any size: the panics of C16 aside, nothing else is reported. *)
Theorem C60_unstorable_sound : forall c t d w v out e, wf_dtype d -> writer c t d = DOk w -> has_type t v ->
  write_one c w v = (out, Err e) -> exists msg, e = EData msg /\ unstorable t d v out msg.
Proof. exact unstorable_sound. Qed.
Print Assumptions C60_unstorable_sound.
(** A value has an encoding or is unstorable in exactly one way, never both. *)
Theorem C60_one_fault : forall c t d w v, wf_dtype d -> strings_fit (c_usize_max c) d -> writer c t d = DOk w -> has_type t v ->
  (exists bs, encode t d v = Some bs /\ forall out msg, ~ unstorable t d v out msg) \/
  (encode t d v = None /\ exists out msg, unstorable t d v out msg /\ forall out' msg', unstorable t d v out' msg' -> out' = out /\ msg' = msg).
Proof. exact one_unstorable. Qed.
Print Assumptions C60_one_fault.

(** One record with a first field that is stored, and a name that is one character too long. *)
Definition C60_val : val := XRec [XInt 258; XStr [97; 98; 99; 100]; XSeq [XComplex 1 2; XComplex 3 4]].
Example C60_case : has_type case_type C60_val /\ strings_fit usize64 case_dtype
  /\ exists w, writer le64 case_type case_dtype = DOk w
  /\ write_one le64 w C60_val = ([1; 2] ++ [0;0;0;97; 0;0;0;98; 0;0;0;99], Err (EData (lit "string has too many code units (4) for type-string '>U3'"))).
Proof. split; [ cbn; repeat split; try lia; repeat constructor; reflexivity | ]. split; [ vm_compute; intuition discriminate | ]. eexists. split; reflexivity. Qed.
Example C60_case_spec : unstorable case_type case_dtype C60_val ([1; 2] ++ [0;0;0;97; 0;0;0;98; 0;0;0;99]) (lit "string has too many code units (4) for type-string '>U3'").
Proof.
  apply (member [(lit "id", RInt false W2)] (lit "name") RString [(lit "pos", RArray 2 (RComplex X4))]
    [(lit "id", plain Big TUint 2)] (lit "name") (plain Big TUnicodeStr 3) [(lit "pos", DArray 2 (plain Big TComplex 8))] [XInt 258]); [ reflexivity | ].
  apply (string_units RString {| ts_endianness := Big; ts_char := TUnicodeStr; ts_size := 3; ts_units := None |} [97; 98; 99; 100] (lit "4") (lit ">U3")); [ now left | reflexivity | reflexivity | | ].
  - apply decimal_exact. reflexivity.
  - apply shown_exact. reflexivity.
Qed.

(** The number in the message about a string that is too long for a byte string is not the number compared with the size:
    the limit is in bytes, the number counts characters (slice.rs:681-685).  Two characters of two bytes each do not fit into
    ['|S3'], and the message says that 2 is too many. *)
Theorem C60_reported_length_refuted : exists c t d ts w v n, d = DPlain ts /\ wf_dtype d /\ writer c t d = DOk w /\ has_type t v
  /\ write_one c w v = ([], Err (EData (lit "string has too many code units (" ++ dec n ++ lit ") for type-string '|S3'"))) /\ n <= ts_size ts.
Proof.
  exists le64, RString, (plain Irrelevant TByteStr 3). eexists. eexists. exists (XStr [233; 233]), 2. split; [ reflexivity | ].
  split; [ wf_case | ]. split; [ reflexivity | ]. split; [ repeat constructor | ]. split; [ reflexivity | ]. discriminate.
Qed.
Print Assumptions C60_reported_length_refuted.
(** In every other message of this kind, and in this one for texts in ASCII, the number is too large for the type. *)
Theorem C60_reported_length_ascii : forall t d v out msg, unstorable t d v out msg -> forall ts s, d = DPlain ts -> v = XStr s -> Forall (fun ch => ch < 128) s ->
  exists n w, msg = lit "string has too many code units (" ++ n ++ lit ") for type-string '" ++ w ++ lit "'" /\ shortest_numeral n (lenN s) /\ ts_size ts < lenN s.
Proof. exact reported_ascii. Qed.
Print Assumptions C60_reported_length_ascii.

(** C61: [read_one] reports bad data exactly for the [unreadable] beginnings, with the message given there, having consumed exactly the bytes given there. *)
Theorem C61_unreadable_exact : forall c t d r input e rest, wf_dtype d -> strings_fit (c_usize_max c) d -> reader c t d = DOk r -> bytes_ok input -> e <> EUnexpectedEof ->
  run (read_one c r) input = (Err e, rest) <-> exists bs msg, input = bs ++ rest /\ e = EData msg /\ unreadable t d bs msg.
Proof. exact unreadable_exact. Qed.
Print Assumptions C61_unreadable_exact.
(** The end of the input is reported exactly if the input is shorter than an item and nothing is wrong with what there is; everything is consumed then. *)
Theorem C61_cut_exact : forall c t d r input, wf_dtype d -> strings_fit (c_usize_max c) d -> reader c t d = DOk r -> bytes_ok input ->
  run (read_one c r) input = (Err EUnexpectedEof, []) <-> lenN input < size d /\ ~ exists bs rest msg, input = bs ++ rest /\ unreadable t d bs msg.
Proof. exact cut_exact. Qed.
Print Assumptions C61_cut_exact.
(** All outcomes, with strings of any size. *)
Theorem C61_outcomes : forall c t d r input, wf_dtype d -> reader c t d = DOk r -> bytes_ok input ->
  match run (read_one c r) input with
  | (Ok v, rest) => exists bs, input = bs ++ rest /\ lenN bs = size d /\ decode t d bs = Some v
  | (Err e, rest) => e = EUnexpectedEof /\ rest = [] /\ lenN input < size d \/ exists bs msg, e = EData msg /\ input = bs ++ rest /\ unreadable t d bs msg
  | (Panic, _) => ~ strings_fit (c_usize_max c) d
  end.
Proof. exact unreadable_sound. Qed.
Print Assumptions C61_outcomes.
(** The bytes of an item have a value or an unreadable beginning, never both, and at most one. *)
Theorem C61_one_fault : forall c t d r item, wf_dtype d -> strings_fit (c_usize_max c) d -> reader c t d = DOk r -> bytes_ok item -> lenN item = size d ->
  (exists v, decode t d item = Some v /\ forall bs rest msg, item = bs ++ rest -> ~ unreadable t d bs msg) \/
  (decode t d item = None /\ exists bs rest msg, item = bs ++ rest /\ unreadable t d bs msg
     /\ forall bs' rest' msg', item = bs' ++ rest' -> unreadable t d bs' msg' -> bs' = bs /\ msg' = msg).
Proof. exact one_unreadable. Qed.
Print Assumptions C61_one_fault.

(** A name with a lone surrogate as its second character; the record's last field is not touched. *)
Definition C61_bytes : bytes := [1; 2] ++ [0;0;0;97; 0;0;0xD8;0].
Example C61_case : strings_fit usize64 case_dtype /\ bytes_ok (C61_bytes ++ [7; 7])
  /\ exists r, reader be64 case_type case_dtype = DOk r /\ run (read_one be64 r) (C61_bytes ++ [7; 7]) = (Err (EData (lit "invalid UTF-32 code unit: d800")), [7; 7]).
Proof. split; [ vm_compute; intuition discriminate | ]. split; [ repeat constructor | ]. eexists. split; reflexivity. Qed.
Example C61_case_spec : unreadable case_type case_dtype C61_bytes (lit "invalid UTF-32 code unit: d800").
Proof.
  apply (member_value [(lit "id", RInt false W2)] (lit "name") RString [(lit "pos", RArray 2 (RComplex X4))]
    [(lit "id", plain Big TUint 2)] (lit "name") (plain Big TUnicodeStr 3) [(lit "pos", DArray 2 (plain Big TComplex 8))] [1; 2] (XRec [XInt 258])); [ reflexivity | reflexivity | ].
  apply (char_value RString {| ts_endianness := Big; ts_char := TUnicodeStr; ts_size := 3; ts_units := None |} 1 [0;0;0;97] [0;0;0xD8;0] (lit "d800")); try reflexivity.
  - right. now split.
  - repeat constructor.
  - apply hex_exact. reflexivity.
Qed.
Example C61_case_array : exists r, reader le64 (RArray 3 RBool) (DArray 3 (plain Irrelevant TBool 1)) = DOk r
  /\ run (read_one le64 r) [1; 7; 0] = (Err (EData (lit "invalid value for bool: 7")), [0])
  /\ run (read_one le64 r) [1] = (Err EUnexpectedEof, [])
  /\ run (read_one le64 r) [0; 1; 1; 5] = (Ok (XSeq [XBool false; XBool true; XBool true]), [5]).
Proof. eexists. split; [ reflexivity | ]. repeat split. Qed.
