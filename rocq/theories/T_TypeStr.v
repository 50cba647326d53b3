(** C01 and C02: type strings. *)
From Verif Require Import M_Base M_Text M_TypeStr S_TypeStr P_TypeStr.
Open Scope N_scope.

(** C01: printing and re-parsing gives the same TypeStr. *)
Theorem C01_type_str_round_trip : forall s t,
  type_str_parse s = TsOk t -> type_str_parse (type_str_display t) = TsOk t.
Proof. exact parse_display_parse. Qed.
Print Assumptions C01_type_str_round_trip.

(** The same from the other side: every legal TypeStr is printed as something that parses back to it,
    and what is printed has neither redundant zeros nor the alias [a]. *)
Theorem C01_type_str_print_parse : forall t,
  legal t -> type_str_parse (type_str_display t) = TsOk t /\ canonical (type_str_display t).
Proof. intros t H. exact (conj (display_parse t H) (display_canonical t H)). Qed.
Print Assumptions C01_type_str_print_parse.

(** Two strings that parse to the same TypeStr print the same, and conversely. *)
Theorem C01_type_str_one_spelling : forall s1 s2 t1 t2,
  type_str_parse s1 = TsOk t1 -> type_str_parse s2 = TsOk t2 ->
  (t1 = t2 <-> type_str_display t1 = type_str_display t2).
Proof. exact parse_same_display. Qed.
Print Assumptions C01_type_str_one_spelling.

(** The alias, redundant zeros and units. *)
Example C01_case_alias : type_str_parse (lit "|a007") = TsOk {| ts_endianness := Irrelevant; ts_char := TByteStr; ts_size := 7; ts_units := None |}
  /\ type_str_display {| ts_endianness := Irrelevant; ts_char := TByteStr; ts_size := 7; ts_units := None |} = lit "|S7".
Proof. split; reflexivity. Qed.
Example C01_case_units : exists t, type_str_parse (lit ">M8[ns]") = TsOk t /\ type_str_display t = lit ">M8[ns]".
Proof. eexists; split; reflexivity. Qed.
Example C01_case_object : exists t, type_str_parse (lit "|O") = TsOk t /\ legal t.
Proof. eexists; split; [ reflexivity | ]. split; reflexivity. Qed.

(** C02: the parser accepts exactly the documented language ([spells] in S_TypeStr), and never panics. *)
Theorem C02_type_str_parse_exact : forall s t, type_str_parse s = TsOk t <-> spells s t.
Proof. exact parse_exact. Qed.
Print Assumptions C02_type_str_parse_exact.

Theorem C02_type_str_parse_total : forall s, type_str_parse s <> TsPanic.
Proof. exact parse_no_panic. Qed.
Print Assumptions C02_type_str_parse_total.

(** The error kind says what is wrong. *)
Theorem C02_type_str_error_kind : forall s err, type_str_parse s = TsErr err ->
  match err with
  | SyntaxError => ~ well_spelled s
  | ParseIntError => exists mark code size unit n, s = lit mark ++ lit code ++ size ++ unit /\ numeral size n /\ 2 ^ 64 <= n
      /\ (exists e, In (mark, e) mark_table) /\ (exists c, In (code, c) code_table)
  | InvalidEndianness t | InvalidSize t | MissingOrUnexpectedUnits t => well_spelled s /\ ~ legal t
  end.
Proof. exact parse_other_error. Qed.
Print Assumptions C02_type_str_error_kind.

Example C02_case_spells : spells (lit "<U012") {| ts_endianness := Little; ts_char := TUnicodeStr; ts_size := 12; ts_units := None |}.
Proof. apply parse_exact. reflexivity. Qed.
(** A single two-byte character passes the length guard ([s.len() < 2] counts bytes) and must not reach the second [unwrap]. *)
Example C02_case_multibyte : type_str_parse [0xE9] = TsErr SyntaxError /\ lenN (utf8 [0xE9]) = 2.
Proof. split; reflexivity. Qed.
Example C02_case_errors :
  type_str_parse (lit "|i4") = TsErr (InvalidEndianness {| ts_endianness := Irrelevant; ts_char := TInt; ts_size := 4; ts_units := None |})
  /\ type_str_parse (lit "<i3") = TsErr (InvalidSize {| ts_endianness := Little; ts_char := TInt; ts_size := 3; ts_units := None |})
  /\ type_str_parse (lit "<M8") = TsErr (MissingOrUnexpectedUnits {| ts_endianness := Little; ts_char := TDateTime; ts_size := 8; ts_units := None |})
  /\ type_str_parse (lit "|S18446744073709551616") = TsErr ParseIntError
  /\ type_str_parse (lit "|O8") = TsErr SyntaxError.
Proof. repeat split; reflexivity. Qed.
