(** C49, and C28 and C34 in terms of the bytes of a file. *)
From Verif Require Import M_Base M_Text M_TypeStr M_PyLit M_IO M_Header M_Read S_Text S_TypeStr S_Python S_DType S_Shape S_Header S_Elem S_Dict S_Open
  P_Grammar P_Open T_Parse.
Open Scope N_scope.

(** C49: a text is read as the value the grammar gives it, and refused if the grammar gives it none. *)
Theorem C49_literal_exact : forall src v, parse_literal src = Some v <-> python_literal src v.
Proof. exact parse_exact. Qed.
Print Assumptions C49_literal_exact.

(** The grammar is unambiguous. *)
Lemma literal_unique src v w : python_literal src v -> python_literal src w -> v = w.
Proof. intros Hv Hw. apply parse_exact in Hv, Hw. congruence. Qed.
Theorem C49_unambiguous : forall src v w, python_literal src v -> python_literal src w -> v = w.
Proof. exact literal_unique. Qed.
Print Assumptions C49_unambiguous.

(** [DType::parse] on any string (a newline at its end is ignored). *)
Theorem C49_dtype_parse : forall src d, Forall (fun ch => scalar_value ch = true) src ->
  dtype_parse src = Ok d <-> exists lit v, (src = lit \/ src = lit ++ [10]) /\ python_literal lit v /\ describes v d.
Proof. exact dtype_parse_exact. Qed.
Print Assumptions C49_dtype_parse.

Example C49_case : python_literal (lit " {'a': (-1_0, + -0,), ""b\x41\n"" : [ u'''c'd''', ], 3:{4}} ")
  (VDict [(VString (lit "a"), VTuple [VInteger (-10); VInteger 0]); (VString (98 :: 65 :: [10]), VList [VString (lit "c'd")]); (VInteger 3, VSet [VInteger 4])]).
Proof. apply parse_exact. vm_compute. reflexivity. Qed.
Example C49_case_refused : forall v, ~ python_literal (lit "(1)") v /\ ~ python_literal (lit "01") v /\ ~ python_literal (lit "'a") v
  /\ ~ python_literal (lit "[1 2]") v /\ ~ python_literal (lit "{1, 2: 3}") v /\ ~ python_literal (lit "1__0") v /\ ~ python_literal (lit "") v.
Proof. intros v. repeat split; intros H; apply parse_exact in H; vm_compute in H; discriminate. Qed.
(** Derived in the grammar directly. *)
Example C49_case_derivation : python_literal (lit "[7,]") (VList [VInteger 7]).
Proof.
  exists [], (lit "[7,]"), []. split; [ reflexivity | ]. split; [ constructor | ]. split; [ constructor | ].
  apply (lit_list [] (lit "7,]")); [ constructor | ]. apply (sequence_more (chr "]") (lit "7") (VInteger 7) [] [] (lit "]") []); [ | constructor | constructor | constructor ].
  constructor. split; [ | intros c r [= <- _]; unfold blank; cbn; intuition discriminate ].
  apply (signed_natural (lit "7") 7). apply (natural_positive 55 [] []); [ split; discriminate | constructor ].
Qed.

(** C34: opening succeeds exactly on these bytes and with exactly these numbers. *)
Theorem C34_opens_exactly : forall c input h rest, Forall (fun b => b < 256) input ->
  run (read_and_interpret c) input = (Ok h, rest) <->
  exists pre txt v d shape o, input = pre ++ rest /\ preamble_of pre txt /\ header_text txt v /\ header_says v d shape o
    /\ no_overflow_met c shape o /\ countable c d /\ numbers c d shape o h.
Proof. exact open_exact. Qed.
Print Assumptions C34_opens_exactly.

(** and panics exactly on these. *)
Theorem C34_panics_exactly : forall c input, Forall (fun b => b < 256) input ->
  fst (run (read_and_interpret c) input) = Panic <->
  exists pre txt v d shape o rest, input = pre ++ rest /\ preamble_of pre txt /\ header_text txt v /\ header_says v d shape o /\ overflow_panic c d shape o.
Proof. exact open_panic_exact. Qed.
Print Assumptions C34_panics_exactly.

Example C34_bytes_case : header_text C34_text (VDict [(VString (lit "shape"), VList [VInteger 2]); (VString (lit "fortran_order"), VBool true);
    (VString (lit "x"), VDict [(VInteger 1, VNone)]); (VString (lit "descr"), VList [VTuple [VString (lit "a"); VString (lit "<f4"); VTuple [VInteger 2; VInteger 3]]])])
  /\ exists h rest, run (read_and_interpret C34_cfg) (C34_input ++ [7; 8]) = (Ok h, rest).
Proof.
  split.
  - apply header_text_exact; [ | vm_compute; reflexivity ]. apply Forall_forall. intros x Hx. vm_compute in Hx. cbv beta.
    repeat (destruct Hx as [ <- | Hx ]; [ reflexivity | ]). destruct Hx.
  - do 2 eexists. vm_compute. reflexivity.
Qed.

(** C28: what [from_parts] computes, for all dtypes, shapes and orders. *)
Theorem C28_numbers_exact : forall c d shape o h,
  from_parts c d shape o = Ok h <-> no_overflow_met c shape o /\ countable c d /\ numbers c d shape o h.
Proof. exact from_parts_exact. Qed.
Print Assumptions C28_numbers_exact.
Theorem C28_panics_exactly : forall c d shape o, from_parts c d shape o = Panic <-> overflow_panic c d shape o.
Proof. exact from_parts_panic_exact. Qed.
Print Assumptions C28_panics_exactly.

Example C28_numbers_case : numbers C34_cfg (DPlain {| ts_endianness := Little; ts_char := TInt; ts_size := 4; ts_units := None |}) [2; 3; 4] OrderC
  {| h_dtype := DPlain {| ts_endianness := Little; ts_char := TInt; ts_size := 4; ts_units := None |}; h_shape := [2; 3; 4]; h_strides := [12; 4; 1]; h_order := OrderC;
     h_n_records := 24; h_item_size := Some 4; h_pickled := false |}.
Proof.
  unfold numbers. cbn [h_dtype h_shape h_order h_n_records h_strides h_pickled h_item_size]. repeat (split; [ reflexivity | ]).
  assert (~ has_object (DPlain {| ts_endianness := Little; ts_char := TInt; ts_size := 4; ts_units := None |})) by (intros H; inversion H; discriminate).
  split; [ split; [ discriminate | contradiction ] | ]. split; [ contradiction | reflexivity ].
Qed.
Example C28_panics_case : overflow_panic C34_cfg (DPlain {| ts_endianness := Little; ts_char := TInt; ts_size := 4; ts_units := None |}) [0; 2 ^ 40; 2 ^ 40] OrderC.
Proof.
  split; [ reflexivity | right ]. split; [ right; split; discriminate | ]. split; [ reflexivity | ]. intros H. specialize (H 1%nat). vm_compute in H. discriminate.
Qed.
