(** C34, C35 and the grammar part of C03: reading arbitrary headers. *)
From Coq Require Import Permutation.
From Verif Require Import M_Base M_Text M_TypeStr M_PyLit M_IO M_Header M_Read M_Serialize M_NpyReader S_TypeStr S_DType S_Shape S_Header S_Dict
  P_Base P_Shape P_Header P_IO P_Parse P_Interp S_Text.
Open Scope N_scope.

(** C34: [NpyFile::new] accepts exactly the inputs that start with a complete preamble whose text is a literal saying a dtype, a shape and
    an order for which the header's numbers can be computed; the reader is then left right behind that preamble. *)
Theorem C34_accepts_exactly : forall c input h rest,
  run (read_and_interpret c) input = (Ok h, rest) <->
  exists pre txt hv d shape o, input = pre ++ rest /\ preamble_of pre txt /\ parse_header_text txt = Ok hv
    /\ header_says hv d shape o /\ from_parts c d shape o = Ok h.
Proof. exact preamble_exact. Qed.
Print Assumptions C34_accepts_exactly.

(** On a seekable source: the source is untouched and its position has moved by the length of the preamble. *)
Lemma npy_new_position c src f src' : npy_new c src = (Ok f, src') ->
  exists pre txt rest, cur_rest src = pre ++ rest /\ preamble_of pre txt
    /\ nf_src f = src' /\ cur_data src' = cur_data src /\ cur_pos src' = cur_pos src + lenN pre /\ cur_rest src' = rest.
Proof.
  unfold npy_new, run_cursor. destruct (run (read_and_interpret c) (cur_rest src)) as ([ h | e | ], rest) eqn:E; [ | discriminate | discriminate ].
  intros [= <- <-]. apply preamble_exact in E as (pre & txt & hv & d & shape & o & E & Hp & _).
  exists pre, txt, rest. cbn [nf_src cur_data cur_pos]. rewrite E, lenN_app.
  repeat (split; [ first [ reflexivity | assumption | lia ] | ]). unfold cur_rest in *. cbn [cur_data cur_pos].
  replace (cur_pos src + (lenN pre + lenN rest - lenN rest)) with (lenN pre + cur_pos src) by lia.
  rewrite <- dropN_dropN, E. now apply dropN_app.
Qed.
Theorem C34_consumes_preamble : forall c src f src', npy_new c src = (Ok f, src') ->
  exists pre txt rest, cur_rest src = pre ++ rest /\ preamble_of pre txt
    /\ nf_src f = src' /\ cur_data src' = cur_data src /\ cur_pos src' = cur_pos src + lenN pre /\ cur_rest src' = rest.
Proof. exact npy_new_position. Qed.
Print Assumptions C34_consumes_preamble.

(** The only panic: an overflow-checked build and a shape whose products do not fit. *)
Lemma npy_new_panic c src : fst (npy_new c src) = Panic ->
  c_ovf_panics c = true
  /\ exists pre txt hv d shape o rest, cur_rest src = pre ++ rest /\ preamble_of pre txt /\ parse_header_text txt = Ok hv
    /\ header_says hv d shape o /\ ~ no_overflow shape.
Proof.
  unfold npy_new, run_cursor. pose proof (preamble_panic c (cur_rest src)) as H.
  destruct (run (read_and_interpret c) (cur_rest src)) as ([ h | e | ], rest); [ discriminate | discriminate | ]. intros _. now apply H.
Qed.
Theorem C34_panics_only_on_overflow : forall c src, fst (npy_new c src) = Panic ->
  c_ovf_panics c = true
  /\ exists pre txt hv d shape o rest, cur_rest src = pre ++ rest /\ preamble_of pre txt /\ parse_header_text txt = Ok hv
    /\ header_says hv d shape o /\ ~ no_overflow shape.
Proof. exact npy_new_panic. Qed.
Print Assumptions C34_panics_only_on_overflow.

(** The buffer for the header text: where the announced length can be allocated the above is all there is to it; on a 64-bit machine that
    is always so. *)
Theorem C34_allocation_same : forall c input, (forall n, announces input n -> 2 * n <= c_usize_max c) ->
  run (read_and_interpret_alloc c) input = run (read_and_interpret c) input.
Proof. exact alloc_same. Qed.
Print Assumptions C34_allocation_same.
Theorem C34_allocation_64 : forall c input, Forall (fun b => b < 256) input -> c_usize_max c + 1 = 2 ^ 64 ->
  run (read_and_interpret_alloc c) input = run (read_and_interpret c) input.
Proof. exact alloc_64. Qed.
Print Assumptions C34_allocation_64.
(** Otherwise it panics, so on a 32-bit machine these twelve bytes are enough. *)
Theorem C34_allocation_panics : forall c input n, announces input n -> c_usize_max c < 2 * n -> fst (run (read_and_interpret_alloc c) input) = Panic.
Proof. exact alloc_panics. Qed.
Print Assumptions C34_allocation_panics.
Theorem C34_32bit_refuted : exists c input, c_usize_max c + 1 = 2 ^ 32 /\ c_ovf_panics c = false /\ lenN input = 12
  /\ fst (run (read_and_interpret_alloc c) input) = Panic.
Proof.
  exists {| c_usize_max := 4294967295; c_big := false; c_ovf_panics := false |}, (0x93 :: lit "NUMPY" ++ [2; 0; 0; 0; 0; 128]).
  repeat split; vm_compute; reflexivity.
Qed.
Print Assumptions C34_32bit_refuted.
Example C34_allocation_case : announces (0x93 :: lit "NUMPY" ++ [2; 0; 0; 0; 0; 128]) (2 ^ 31) /\ 4294967295 < 2 * 2 ^ 31
  /\ announces (0x93 :: lit "NUMPY" ++ [1; 0; 5; 0; 7]) 5 /\ 2 * 5 <= 4294967295.
Proof.
  split; [ exists 2, [0; 0; 0; 128], []; repeat split; auto | ]. split; [ reflexivity | ]. split; [ exists 1, [5; 0], [7]; repeat split; auto | discriminate ].
Qed.

(** Whatever bytes it is read from, a header is well formed: the item theorems (C16 to C24) apply to it. *)
Theorem C34_well_formed : forall c input h rest, Forall (fun b => b < 256) input -> run (read_and_interpret c) input = (Ok h, rest) ->
  wf_dtype (h_dtype h) /\ top_level (h_dtype h) /\ Forall (fun n => n < 2 ^ 64) (h_shape h).
Proof. exact read_wf. Qed.
Print Assumptions C34_well_formed.

(** The literal parser's recursion bound never matters. *)
Theorem C34_parser_depth : forall s f, (2 * List.length s + 2 <= f)%nat ->
  parse_literal s = match p_value f (skip_ws s) with
                    | Some (v, rest) => match skip_ws rest with [] => Some v | _ => None end
                    | None => None
                    end.
Proof. exact parse_literal_fuel. Qed.
Print Assumptions C34_parser_depth.

Definition C34_cfg : cfg := {| c_big := false; c_usize_max := usize64; c_ovf_panics := true |}.
Definition C34_text : bytes := lit "{'shape': [2,], ""fortran_order"": True, 'x': {1: None}, 'descr': [('a', '<f4', (2, 3))]}".
Definition C34_input : bytes := 0x93 :: lit "NUMPY" ++ [2; 0] ++ [lenN C34_text; 0; 0; 0] ++ C34_text.
Example C34_case : exists h, run (read_and_interpret C34_cfg) (C34_input ++ [7; 8]) = (Ok h, [7; 8])
  /\ h_shape h = [2] /\ h_order h = OrderFortran /\ h_item_size h = Some 24.
Proof. eexists. split; [ vm_compute; reflexivity | repeat split ]. Qed.
Example C34_case_panic :
  let txt := lit "{'shape': (9999999999, 9999999999), 'fortran_order': False, 'descr': '|u1'}" in
  fst (npy_new C34_cfg {| cur_data := 1 :: 0x93 :: lit "NUMPY" ++ [1; 0] ++ [lenN txt; 0] ++ txt; cur_pos := 1 |}) = Panic.
Proof. vm_compute. reflexivity. Qed.

(** C35: which dictionaries are accepted. *)
Theorem C35_keys : forall c hv h,
  interpret_header c hv = Ok h <-> exists d shape o, header_says hv d shape o /\ from_parts c d shape o = Ok h.
Proof. exact interpret_ok. Qed.
Print Assumptions C35_keys.

(** What a dictionary says is unambiguous. *)
Theorem C35_functional : forall hv d shape o d' shape' o',
  header_says hv d shape o -> header_says hv d' shape' o' -> d = d' /\ shape = shape' /\ o = o'.
Proof. exact header_says_unique. Qed.
Print Assumptions C35_functional.

(** Key order is irrelevant. *)
Theorem C35_order : forall c pairs pairs', Permutation pairs pairs' -> NoDup (map fst pairs) ->
  forall h, interpret_header c (VDict pairs) = Ok h <-> interpret_header c (VDict pairs') = Ok h.
Proof. exact interpret_perm. Qed.
Print Assumptions C35_order.

(** Unknown keys are ignored, wherever they stand. *)
Theorem C35_unknown_ignored : forall c l1 l2 k v,
  ~ (k = lit "descr" \/ k = lit "fortran_order" \/ k = lit "shape") ->
  forall h, interpret_header c (VDict (l1 ++ (VString k, v) :: l2)) = Ok h <-> interpret_header c (VDict (l1 ++ l2)) = Ok h.
Proof. exact interpret_extra. Qed.
Print Assumptions C35_unknown_ignored.

(** Of a repeated key only the last value counts. *)
Theorem C35_duplicate_last : forall c l1 l2 l3 k v w,
  forall h, interpret_header c (VDict (l1 ++ (VString k, v) :: l2 ++ (VString k, w) :: l3)) = Ok h
        <-> interpret_header c (VDict (l1 ++ l2 ++ (VString k, w) :: l3)) = Ok h.
Proof. exact interpret_duplicate. Qed.
Print Assumptions C35_duplicate_last.

Definition C35_pairs : list (value * value) :=
  [(VString (lit "descr"), VString (lit "<i8")); (VString (lit "fortran_order"), VBool false); (VString (lit "shape"), VTuple [VInteger 3])].
Example C35_case : exists h, interpret_header C34_cfg (VDict C35_pairs) = Ok h /\ h_n_records h = 3.
Proof. eexists. split; vm_compute; reflexivity. Qed.
Example C35_case_order : Permutation C35_pairs (rev C35_pairs) /\ NoDup (map fst C35_pairs)
  /\ exists h, interpret_header C34_cfg (VDict (rev C35_pairs)) = Ok h /\ h_n_records h = 3.
Proof.
  split; [ apply Permutation_rev | split ].
  - cbn. repeat constructor; cbn; intuition discriminate.
  - eexists. split; vm_compute; reflexivity.
Qed.
Example C35_case_duplicate : exists h, interpret_header C34_cfg (VDict (C35_pairs ++ [(VString (lit "shape"), VTuple [VInteger 5]); (VString (lit "extra"), VNone)])) = Ok h
  /\ h_n_records h = 5.
Proof. eexists. split; vm_compute; reflexivity. Qed.
Example C35_case_reject : forall h,
  interpret_header C34_cfg (VDict (C35_pairs ++ [(VInteger 1, VNone)])) <> Ok h
  /\ interpret_header C34_cfg (VDict (tl C35_pairs)) <> Ok h
  /\ interpret_header C34_cfg (VDict (C35_pairs ++ [(VString (lit "shape"), VInteger 3)])) <> Ok h
  /\ interpret_header C34_cfg (VDict (C35_pairs ++ [(VString (lit "shape"), VTuple [VInteger (-3)])])) <> Ok h
  /\ interpret_header C34_cfg (VDict (C35_pairs ++ [(VString (lit "fortran_order"), VInteger 1)])) <> Ok h.
Proof. intros h. repeat split; vm_compute; discriminate. Qed.

(** C03, the grammar of descriptions: exactly these values describe a dtype. *)
Theorem C03_grammar : forall v d, from_descr v = Ok d <-> describes v d.
Proof. exact descr_exact. Qed.
Print Assumptions C03_grammar.

(** Whatever text a dtype is parsed from, printing and parsing it again gives the same dtype. *)
Lemma dtype_reparse src d : Forall (fun c => scalar_value c = true) src -> dtype_parse src = Ok d -> dtype_parse (descr d) = Ok d.
Proof. intros Hs H. apply dtype_parse_wf in H as (? & ?); auto. now apply dtype_parse_descr. Qed.
Theorem C03_parse_print_parse : forall src d, Forall (fun c => scalar_value c = true) src -> dtype_parse src = Ok d -> dtype_parse (descr d) = Ok d.
Proof. exact dtype_reparse. Qed.
Print Assumptions C03_parse_print_parse.
Example C03_reparse_case : exists d, dtype_parse (lit "[['x', ""|b1""], (u'y', [('z', '>f8', [2,])], (3,)),]") = Ok d
  /\ descr d = lit "[('x', '|b1'), ('y', [('z', '>f8', (2,)), ], (3,)), ]" .
Proof. eexists. split; vm_compute; reflexivity. Qed.
