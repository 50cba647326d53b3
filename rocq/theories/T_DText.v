(** C01, C03, C05: the text that is written. *)
From Verif Require Import M_Base M_Text M_TypeStr M_Header M_Read M_IO M_Write S_Text S_TypeStr S_DType S_Header S_DText P_Base P_TypeStr P_WriteHeader P_DText T_Text T_DType T_WriteHeader.
Open Scope N_scope.

(** C01: a legal TypeStr has exactly one canonical spelling, and that is what is printed. *)
Lemma canonical_exact s t : legal t -> s = type_str_display t <-> spells s t /\ canonical s.
Proof. intros Hl. split; [ intros ->; split; [ now apply display_spells | now apply display_canonical ] | intros (H1 & H2); now apply canonical_unique ]. Qed.
Theorem C01_type_str_printed : forall s t, legal t -> s = type_str_display t <-> spells s t /\ canonical s.
Proof. exact canonical_exact. Qed.
Print Assumptions C01_type_str_printed.
Example C01_printed_case : spells (lit "<M8[us]") {| ts_endianness := Little; ts_char := TDateTime; ts_size := 8; ts_units := Some Microsecond |}
  /\ canonical (lit "<M8[us]") /\ ~ canonical (lit "|S00") /\ ~ canonical (lit "|a1").
Proof.
  split; [ apply parse_exact; reflexivity | ]. repeat split.
  - intros m r [=].
  - intros m c d r [=].
  - intros (_ & H). apply (H (chr "|") (chr "S") 48 []); [ reflexivity | split; discriminate ].
  - intros (H & _). now apply (H (chr "|") (lit "1")).
Qed.

(** C03: the text of a dtype is the one described in S_DText.v; there is none exactly for arrays outside of records. *)
Theorem C03_text_exact : forall d t, wf_dtype d -> dtype_text d t <-> top_level d /\ t = descr d.
Proof. exact dtype_text_exact. Qed.
Print Assumptions C03_text_exact.
Example C03_text_case : dtype_text C03_case (descr C03_case).
Proof.
  apply C03_text_exact; [ exact (proj1 C03_case_hyps) | split; [ exact I | reflexivity ] ].
Qed.
(** The model's [descr] satisfies the source's equations, [extract_full_array_shape] included. *)
Theorem C03_descr_source : forall d, descr d =
  match d with
  | DPlain t => lit "'" ++ type_str_display t ++ lit "'"
  | DRecord fields =>
    lit "[" ++ flat_map (fun f =>
      match snd f with
      | DArray _ _ =>
        let '(shape, elem_ty) := extract_full_array_shape (snd f) in
        lit "(" ++ py_str_lit (fst f) ++ lit ", " ++ descr elem_ty ++ lit ", (" ++ shape_str shape ++ lit ")), "
      | _ => lit "(" ++ py_str_lit (fst f) ++ lit ", " ++ descr (snd f) ++ lit "), "
      end) fields ++ lit "]"
  | DArray n inner => lit "<< array " ++ dec n ++ lit " of " ++ descr inner ++ lit " >>"
  end.
Proof. exact descr_source. Qed.
Print Assumptions C03_descr_source.

(** C05: a written header is the dictionary, in UTF-8, then fewer than 64 spaces and a newline. *)
Lemma header_is_dictionary c d o shape s s' : wf_dtype d -> write_header_only c d o shape s = (Ok tt, s') -> sk_pos s = lenN (sk_data s) ->
  exists hdr major pad T, sk_data s' = sk_data s ++ hdr /\ dictionary d o shape T /\ npy_layout hdr major 0 (utf8_string T ++ repeatN 32 pad ++ [10]) /\ pad < 64.
Proof.
  intros Hw H Hp. pose proof H as Ht. apply write_header_only_inv in Ht as (Ht & _). destruct (header_text_exact _ _ _ _ _ _ H Hp) as (hdr & major & pad & H1 & H2 & H3).
  exists hdr, major, pad, (header_dict d o shape). repeat (split; [ solve [ auto ] | ]). split; [ now apply dictionary_exact | auto ].
Qed.
Theorem C05_header_is_dictionary : forall c d o shape s s', wf_dtype d ->
  write_header_only c d o shape s = (Ok tt, s') -> sk_pos s = lenN (sk_data s) ->
  exists hdr major pad T, sk_data s' = sk_data s ++ hdr /\ dictionary d o shape T
  /\ npy_layout hdr major 0 (utf8_string T ++ repeatN 32 pad ++ [10]) /\ pad < 64.
Proof. exact header_is_dictionary. Qed.
Print Assumptions C05_header_is_dictionary.
(** The dictionary is unique, and is the text C06 speaks about. *)
Theorem C05_dictionary_exact : forall d o shape T, wf_dtype d -> dictionary d o shape T <-> top_level d /\ T = header_dict d o shape.
Proof. exact dictionary_exact. Qed.
Print Assumptions C05_dictionary_exact.
Example C05_dictionary_case : dictionary (DPlain {| ts_endianness := Big; ts_char := TFloat; ts_size := 8; ts_units := None |}) OrderFortran [3; 10]
  (lit "{'descr': '>f8', 'fortran_order': True, 'shape': (3, 10, ), }").
Proof. apply C05_dictionary_exact; [ cbn; repeat split; auto; discriminate | split; [ exact I | reflexivity ] ]. Qed.
