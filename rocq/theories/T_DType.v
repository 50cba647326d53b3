(** C03: DTypes survive being written as a descr and parsed back. *)
From Verif Require Import M_Base M_TypeStr M_Header S_TypeStr S_DType P_Header.
Open Scope N_scope.

Theorem C03_dtype_round_trip : forall d, wf_dtype d -> top_level d -> dtype_parse (descr d) = Ok d.
Proof. exact dtype_parse_descr. Qed.
Print Assumptions C03_dtype_round_trip.

(** Nested records and arrays, a name with quote, backslash, newline and NUL, an empty record, an empty name. *)
Definition C03_case : dtype :=
  DRecord [ ([39; 92; 10; 0; 13; 0x1F600], DArray 2 (DArray 0 (DRecord [ (lit "x", DPlain {| ts_endianness := Big; ts_char := TInt; ts_size := 8; ts_units := None |}) ])));
            ([], DRecord []);
            (lit "t", DPlain {| ts_endianness := Little; ts_char := TDateTime; ts_size := 8; ts_units := Some Microsecond |});
            (lit "o", DArray (2 ^ 64 - 1) (DPlain {| ts_endianness := Irrelevant; ts_char := TObject; ts_size := 0; ts_units := None |})) ].
Example C03_case_hyps : wf_dtype C03_case /\ top_level C03_case.
Proof.
  split; [ wf_case | exact I ].
Qed.
Example C03_case_value : dtype_parse (descr C03_case) = Ok C03_case.
Proof. vm_compute. reflexivity. Qed.
