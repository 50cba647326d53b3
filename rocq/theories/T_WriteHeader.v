(** C04, C05, C06: headers. *)
From Verif Require Import M_Base M_Text M_TypeStr M_IO M_Header M_Read M_Serialize M_Write S_TypeStr S_DType S_Text S_Shape S_Header P_Base P_Shape P_Header P_WriteHeader.
Open Scope N_scope.

(** C04.  Whatever header [write_header_only] manages to write at the end of a stream, every machine that can represent the item size
    reads back from it, whatever follows, and exactly the header is consumed. *)
Theorem C04_header_round_trip : forall c d o shape s s',
  write_header_only c d o shape s = (Ok tt, s') ->
  sk_pos s = lenN (sk_data s) -> wf_dtype d -> Forall (fun n => n < 2 ^ 64) shape -> no_overflow shape ->
  exists hdr, sk_data s' = sk_data s ++ hdr /\ sk_pos s' = lenN (sk_data s')
  /\ forall c' rest, uses_pickled_array d = true \/ (exists n, num_bytes c' d = Some n) ->
     exists h, run (read_and_interpret c') (hdr ++ rest) = (Ok h, rest)
     /\ h_dtype h = d /\ h_shape h = shape /\ h_order h = o /\ h_n_records h = count shape.
Proof. exact header_round_trip. Qed.
Print Assumptions C04_header_round_trip.

Definition C04_cfg : cfg := {| c_big := true; c_usize_max := usize32; c_ovf_panics := true |}.
Definition C04_sink : sink := {| sk_data := [1; 2; 3]; sk_pos := 3; sk_fuel := Some 500 |}.
Definition C04_dtype : dtype :=
  DRecord [(lit "it's", DPlain {| ts_endianness := Big; ts_char := TFloat; ts_size := 8; ts_units := None |});
           ([0x1F600; 92], DArray 3 (DArray 2 (DPlain {| ts_endianness := Little; ts_char := TDateTime; ts_size := 8; ts_units := Some Femtosecond |})))].
Example C04_case : exists s', write_header_only C04_cfg C04_dtype OrderFortran [2; 5] C04_sink = (Ok tt, s')
  /\ sk_pos C04_sink = lenN (sk_data C04_sink) /\ wf_dtype C04_dtype /\ Forall (fun n => n < 2 ^ 64) [2; 5] /\ no_overflow [2; 5]
  /\ num_bytes C04_cfg C04_dtype = Some 56.
Proof.
  eexists. split; [ vm_compute; reflexivity | ]. split; [ reflexivity | ]. split.
  - wf_case.
  - split; [ repeat constructor | ]. split; [ apply count_pos_no_overflow; split; reflexivity | reflexivity ].
Qed.

(** C05, for every kind of header (fixed shape, growing 1-D, growing 2-D). *)
Theorem C05_header_conforms : forall c d o h s info props s',
  write_header c d o h s = (Ok (info, props), s') -> sk_pos s = lenN (sk_data s) ->
  exists hdr major txt, sk_data s' = sk_data s ++ hdr /\ npy_layout hdr major 0 txt /\ (wf_dtype d -> Forall (fun b => b < 256) hdr).
Proof. exact header_conforms. Qed.
Print Assumptions C05_header_conforms.

(** The text for a fixed shape is the documented dictionary, padded with less than 64 spaces. *)
Theorem C05_header_text : forall c d o shape s s',
  write_header_only c d o shape s = (Ok tt, s') -> sk_pos s = lenN (sk_data s) ->
  exists hdr major pad, sk_data s' = sk_data s ++ hdr
  /\ npy_layout hdr major 0 (utf8_string (header_dict d o shape) ++ repeatN 32 pad ++ [10]) /\ pad < 64.
Proof. exact header_text_exact. Qed.
Print Assumptions C05_header_text.

Example C05_case : exists info props s', write_header C04_cfg C04_dtype OrderC (TwoDimensional 7) C04_sink = (Ok (info, props), s')
  /\ lenN (sk_data s') = 195.
Proof. do 3 eexists. split; vm_compute; reflexivity. Qed.

(** C06: exactly which headers panic.  The upper case is unavoidable (no format version has a wider length field); the first one is
    the bug: ASCII text between 65526 and 2^32 - 1025 bytes long, which fits the 32-bit format version. *)
Theorem C06_panic_exact : forall c d o shape s,
  top_level d -> (c_ovf_panics c = true -> no_overflow shape) -> sk_fuel s = None ->
  let T := utf8_string (header_dict d o shape) in
  (fst (write_header_only c d o shape s) = Panic <->
     (Forall (fun b => b < 128) T /\ 65525 < lenN T < 0xfffffc00) \/ 2 ^ 32 - 13 < lenN T)
  /\ fst (write_header_only c d o shape s) <> Err ESink
  /\ (fst (write_header_only c d o shape s) = Panic \/ fst (write_header_only c d o shape s) = Ok tt).
Proof. exact header_panics. Qed.
Print Assumptions C06_panic_exact.

(** The part of C06 that holds: short ASCII headers and all non-ASCII headers are fine. *)
Theorem C06_no_panic_partial : forall c d o shape s,
  top_level d -> (c_ovf_panics c = true -> no_overflow shape) -> sk_fuel s = None ->
  let T := utf8_string (header_dict d o shape) in
  lenN T <= 65525 \/ (Exists (fun b => 128 <= b) T /\ lenN T <= 2 ^ 32 - 13) ->
  fst (write_header_only c d o shape s) = Ok tt.
Proof. exact header_written. Qed.
Print Assumptions C06_no_panic_partial.

(** The claim itself is false. *)
Definition C06_dtype : dtype :=
  DRecord [(repeatN 97 70000, DPlain {| ts_endianness := Irrelevant; ts_char := TUint; ts_size := 1; ts_units := None |})].
Theorem C06_no_panic_refuted : exists c d o shape,
  wf_dtype d /\ top_level d /\ no_overflow shape /\ lenN (utf8_string (header_dict d o shape)) < 2 ^ 32 - 13
  /\ fst (write_header_only c d o shape {| sk_data := []; sk_pos := 0; sk_fuel := None |}) = Panic.
Proof.
  exists C04_cfg, C06_dtype, OrderC, [1]. split.
  - cbn -[repeatN]. repeat split; auto. intros ch H.
    pose proof (Forall_repeatN (fun b => b = 97) 97 70000 eq_refl) as F. rewrite Forall_forall in F. apply F in H as ->. reflexivity.
  - split; [ exact I | ]. split; [ apply count_pos_no_overflow; cbn; lia | ]. split; [ vm_compute; reflexivity | vm_compute; reflexivity ].
Qed.
Print Assumptions C06_no_panic_refuted.
(** A name beyond ASCII of the same length: not a panic; and a short header. *)
Definition C06_wide : dtype := DRecord [(233 :: repeatN 97 70000, DPlain {| ts_endianness := Irrelevant; ts_char := TUint; ts_size := 1; ts_units := None |})].
Example C06_case : let s := {| sk_data := []; sk_pos := 0; sk_fuel := None |} in
  top_level C06_dtype /\ top_level C06_wide
  /\ (let T := utf8_string (header_dict C06_dtype OrderC [1]) in forallb (fun b => b <? 128) T = true /\ 65525 < lenN T < 0xfffffc00)
  /\ (let T := utf8_string (header_dict C06_wide OrderC [1]) in existsb (fun b => 128 <=? b) T = true /\ lenN T <= 2 ^ 32 - 13)
  /\ fst (write_header_only C04_cfg C06_wide OrderC [1] s) = Ok tt.
Proof. cbn zeta. split; [ exact I | ]. split; [ exact I | ]. split; [ split; [ vm_compute; reflexivity | split; vm_compute; reflexivity ] | ]. split; [ split; [ vm_compute; reflexivity | vm_compute; discriminate ] | vm_compute; reflexivity ]. Qed.
