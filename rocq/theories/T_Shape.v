(** C27 and C28: strides and element counts of an interpreted header. *)
From Verif Require Import M_Base M_TypeStr M_Header M_Read S_Shape P_Base P_Shape.
Open Scope N_scope.

(** C27: the flat index of a multi-index under [strides()] is its position in the enumeration of all multi-indices in
    row-major (C) or column-major (Fortran) order. *)
Theorem C27_strides_position : forall c d shape o h,
  from_parts c d shape o = Ok h -> no_overflow shape ->
  forall idx, in_bounds shape idx ->
  nth_error (match o with OrderC => row_major shape | OrderFortran => column_major shape end)
            (N.to_nat (flat_index (h_strides h) idx)) = Some idx
  /\ flat_index (h_strides h) idx < h_n_records h.
Proof. exact stride_position. Qed.
Print Assumptions C27_strides_position.

(** Hence a bijection between multi-indices and [0..len). *)
Theorem C27_strides_bijection : forall c d shape o h,
  from_parts c d shape o = Ok h -> no_overflow shape ->
  forall p, p < h_n_records h -> exists! idx, in_bounds shape idx /\ flat_index (h_strides h) idx = p.
Proof. exact stride_bijection. Qed.
Print Assumptions C27_strides_bijection.

(** The overflow condition covers every array with at least one element that fits in a [u64]. *)
Theorem C27_no_overflow_nonempty : forall shape, 0 < count shape < 2 ^ 64 -> no_overflow shape.
Proof. exact count_pos_no_overflow. Qed.
Print Assumptions C27_no_overflow_nonempty.

Definition C27_cfg : cfg := {| c_big := false; c_usize_max := usize64; c_ovf_panics := true |}.
Definition C27_dtype : dtype := DPlain {| ts_endianness := Little; ts_char := TInt; ts_size := 4; ts_units := None |}.
Example C27_case : exists h, from_parts C27_cfg C27_dtype [2; 3; 4] OrderC = Ok h /\ h_strides h = [12; 4; 1] /\ h_n_records h = 24
  /\ no_overflow [2; 3; 4] /\ in_bounds [2; 3; 4] [1; 0; 3] /\ nth_error (row_major [2; 3; 4]) 15 = Some [1; 0; 3].
Proof.
  eexists. split; [ reflexivity | ]. split; [ reflexivity | ]. split; [ reflexivity | ].
  split; [ apply count_pos_no_overflow; split; reflexivity | ]. split; [ repeat constructor | reflexivity ].
Qed.
Example C27_case_fortran : exists h, from_parts C27_cfg C27_dtype [2; 3; 4] OrderFortran = Ok h /\ h_strides h = [1; 2; 6]
  /\ nth_error (column_major [2; 3; 4]) 19 = Some [1; 0; 3].
Proof. eexists. split; [ reflexivity | ]. split; reflexivity. Qed.
(** A zero-dimensional array has one element. *)
Example C27_case_zero_dim : exists h, from_parts C27_cfg C27_dtype [] OrderC = Ok h /\ h_strides h = [] /\ h_n_records h = 1 /\ in_bounds [] [].
Proof. eexists. split; [ reflexivity | ]. repeat split; constructor. Qed.

(** C28: [len] is the mathematical product whenever no product of leading or trailing axes exceeds [u64]; in builds with overflow checks
    whenever a header is produced at all; and in builds without them it is the product modulo 2^64. *)
Theorem C28_len_is_product : forall c d shape o h,
  from_parts c d shape o = Ok h ->
  (no_overflow shape \/ c_ovf_panics c = true -> h_n_records h = count shape)
  /\ (c_ovf_panics c = false -> h_n_records h = count shape mod 2 ^ 64).
Proof.
  exact (fun c d shape o h H =>
    conj (fun A => match A with or_introl Hno => len_exact c d shape o h H Hno | or_intror Hc => len_checked c d shape o h H Hc end)
         (len_wraps c d shape o h H)).
Qed.
Print Assumptions C28_len_is_product.

(** With overflow checks, an overflowing product of leading axes panics. *)
Theorem C28_overflow_panics : forall c d shape o,
  c_ovf_panics c = true -> ~ (forall k, count (firstn k shape) < 2 ^ 64) -> from_parts c d shape o = Panic.
Proof. exact overflow_panics. Qed.
Print Assumptions C28_overflow_panics.

(** So the unconditional claim is false: a release build reports length 0 for a 2^32 x 2^32 array, *)
Theorem C28_len_is_product_refuted : exists c d shape o h,
  from_parts c d shape o = Ok h /\ h_n_records h <> count shape.
Proof.
  exists {| c_big := false; c_usize_max := usize64; c_ovf_panics := false |}, C27_dtype, [2 ^ 32; 2 ^ 32], OrderC.
  eexists. split; [ vm_compute; reflexivity | ]. vm_compute. discriminate.
Qed.
Print Assumptions C28_len_is_product_refuted.

(** and a debug build panics on an empty array because of its strides. *)
Theorem C28_empty_array_panics_refuted : exists c d shape o,
  count shape = 0 /\ (forall k, count (firstn k shape) < 2 ^ 64) /\ from_parts c d shape o = Panic.
Proof.
  exists C27_cfg, C27_dtype, [0; 2 ^ 40; 2 ^ 40], OrderC.
  split; [ reflexivity | ]. split; [ | vm_compute; reflexivity ].
  intros k. destruct k as [ | [ | [ | k ] ] ]; reflexivity.
Qed.
Print Assumptions C28_empty_array_panics_refuted.
