(** C56: what is said about strings that are not type strings. *)
From Verif Require Import M_Base M_Text M_TypeStr M_TypeErr S_Text S_TypeStr S_TypeErr P_TypeErr.
Open Scope N_scope.

(** The message is about the first defect and shows the type string as it would be printed ([complaint] in S_TypeErr). *)
Theorem C56_message_exact : forall s msg, complaint s msg <-> exists err, type_str_parse s = TsErr err /\ parse_error_display err = Ok msg.
Proof. exact complaint_exact. Qed.
Print Assumptions C56_message_exact.

(** Every error the parser returns can be shown: [valid_sizes().unwrap()] does not panic. *)
Theorem C56_display_total : forall s err, type_str_parse s = TsErr err -> exists msg, parse_error_display err = Ok msg.
Proof. exact display_total. Qed.
Print Assumptions C56_display_total.

(** So there is exactly one thing to say about a string unless it is a type string. *)
Theorem C56_one_message : forall s, (exists t, spells s t) \/ exists msg, complaint s msg /\ forall msg', complaint s msg' -> msg' = msg.
Proof. exact one_message. Qed.
Print Assumptions C56_one_message.

Example C56_case_size : complaint (lit "<i03") (lit "Type string '<i3' has invalid size. Valid sizes are: [1, 2, 4, 8]").
Proof. apply complaint_exact. eexists; split; reflexivity. Qed.
(** The byte order is looked at before the size, the number before the unit. *)
Example C56_case_order : complaint (lit "|i3") (lit "Type string '|i3' has invalid endianness").
Proof. apply complaint_exact. eexists; split; reflexivity. Qed.
Example C56_case_number : complaint (lit ">i18446744073709551616[x") (lit "number too large to fit in target type").
Proof. apply complaint_exact. eexists; split; reflexivity. Qed.
Example C56_case_unit : complaint (lit "|a5[ns]") (lit "Unexpected time units in type string '|S5[ns]'.").
Proof. apply complaint_exact. eexists; split; reflexivity. Qed.
Example C56_case_missing : complaint (lit ">M8") (lit "Type string '>M8' is missing time units.").
Proof. apply complaint_exact. eexists; split; reflexivity. Qed.
Example C56_case_form : complaint (lit "|O8") (lit "Invalid type-string") /\ complaint (lit "<m8[") (lit "Invalid type-string").
Proof. split; apply complaint_exact; eexists; split; reflexivity. Qed.
