(** Elements by their indices. *)
From Verif Require Import M_Base M_Text M_TypeStr M_PyLit M_IO M_Header M_Read M_Serialize M_NpyReader M_Write.
From Verif Require Import S_TypeStr S_DType S_Shape S_Header S_Elem S_Strings S_Reader S_Write S_Address
  P_Base P_Text P_TypeStr P_PyLit P_Header P_IO P_Sink P_Shape P_WriteHeader P_Number P_Elem P_ReadOne P_WriteOne P_Codec P_Sizes P_Strings P_Parse P_Default P_ElemT P_Reader P_Array P_Writer P_WriteFile P_Session P_Whole P_Bytes.
Open Scope N_scope.

Lemma storage_order_length o shape : lenN (storage_order o shape) = count shape.
Proof. destruct o; [ apply row_major_length | apply column_major_length ]. Qed.
Lemma into_vec_data c t f vs : fst (npy_into_vec c t f) = Ok vs -> exists r, npy_data c t f = DOk r.
Proof. unfold npy_into_vec. destruct (npy_data c t f) as [ r | e ]; [ eauto | discriminate ]. Qed.
Lemma opened_inside c src f src' : npy_new c src = (Ok f, src') -> cur_pos (nf_src f) <= lenN (cur_data src) /\ lenN (cur_rest (nf_src f)) = lenN (cur_data src) - cur_pos (nf_src f).
Proof.
  intros H. pose proof (opened_data _ _ _ _ H) as Hd. split; [ | unfold cur_rest; rewrite lenN_dropN, Hd; lia ].
  apply npy_new_inv in H as (-> & H & _).
  unfold run_cursor in H. destruct (run (read_and_interpret c) (cur_rest src)) as (r & rest) eqn:E. apply pair_inj in H as (-> & <-). cbn [cur_pos].
  destruct (N.le_gt_cases (cur_pos src) (lenN (cur_data src))) as [ L | L ].
  - unfold cur_rest. rewrite lenN_dropN. lia.
  - exfalso. assert (X : cur_rest src = []) by (unfold cur_rest; apply lenN_0; rewrite lenN_dropN; lia). rewrite X in E. discriminate E.
Qed.
Lemma ideal_app m items a : forall b pos, exists pos', ideal m items (a ++ b) pos = ideal m items a pos ++ ideal m items b pos'.
Proof.
  induction a as [ | k a IH ]; intros b pos; cbn [app ideal]; [ eauto | ]. destruct (ideal_call m items k pos) as (o & pos1).
  destruct (IH b pos1) as (pos' & E). exists pos'. rewrite E. reflexivity.
Qed.
Lemma by_index c t data pos d o shape f : bytes_ok data -> no_overflow shape -> strings_fit (c_usize_max c) d ->
  reads_as c t data pos d o shape (map f (storage_order o shape)) -> lenN data < 2 ^ 63 -> c_ovf_panics c = false \/ count shape < 2 ^ 63 ->
  exists file src r, npy_new c {| cur_data := data; cur_pos := pos |} = (Ok file, src) /\ npy_data c t file = DOk r
  /\ h_shape (nf_header file) = shape /\ h_order (nf_header file) = o
  /\ forall idx, in_bounds shape idx -> forall calls,
     finally (actual c (calls ++ [CReadAt (flat_index (h_strides (nf_header file)) idx)]) r) = OItem (f idx).
Proof.
  intros Hb Hno Hfit (file & src & Hf & Hd & Hs & Ho & Hv) Hlen Hc. destruct (into_vec_data _ _ _ _ Hv) as (r & Hr).
  exists file, src, r. split; [ auto | split; [ auto | split; [ auto | split; [ auto | ] ] ] ]. intros idx Hidx calls.
  pose proof Hf as Hf'. apply npy_new_inv in Hf' as (_ & _ & d' & shape' & o' & Hfp).
  assert (shape' = shape /\ o' = o) as (-> & ->) by (apply from_parts_ok in Hfp; intuition congruence).
  pose proof (stride_position _ _ _ _ _ Hfp Hno idx Hidx) as (Hnth & Hlt). pose proof (len_exact _ _ _ _ _ Hfp Hno) as Hcnt.
  rewrite <- Hd in Hfit. pose proof (proj1 (into_vec_exact c t {| cur_data := data; cur_pos := pos |} file src r _ Hfit Hb Hf Hr) Hv) as Hcf.
  assert (Ha : addressable c file).
  { split; [ exact Hfit | split; [ | rewrite Hcnt; exact Hc ] ]. destruct (opened_inside _ _ _ _ Hf) as (Hp & Hl). cbn [cur_data] in *.
    destruct Hcf as (blocks & more & Hrest & Hst & Hn). rewrite Hrest, lenN_app in Hl.
    destruct (stored_len _ _ _ _ Hst) as (Hbl & Htot). rewrite <- Hn. lia. }
  rewrite (complete_histories c t {| cur_data := data; cur_pos := pos |} file src r _ Hb Hf Hr Hcf Ha).
  2:{ left. apply Forall_forall. intros x Hx. apply in_map_iff in Hx as (y & <- & _). discriminate. }
  destruct (ideal_app (c_usize_max c) (map Some (map f (storage_order o shape))) calls [CReadAt (flat_index (h_strides (nf_header file)) idx)] 0) as (pos' & ->).
  unfold finally. cbn [ideal ideal_call]. rewrite !lenN_map, storage_order_length, <- Hcnt. replace (_ <? _) with true by lia.
  rewrite last_last. unfold item_obs. rewrite !nth_error_map. unfold storage_order. rewrite Hnth. reflexivity.
Qed.
Lemma written_by_index c c' t d o h shape f s s' : wf_dtype d -> Forall (has_type t) (map f (storage_order o shape)) -> count shape < 2 ^ 64 ->
  hint_ok h -> final_shape h o (count shape) = Some shape -> no_overflow shape -> bytes_ok (sk_data s) ->
  write_file c t d o h (output_kind h) (map f (storage_order o shape)) s = (Ok tt, s') ->
  accepts (c_usize_max c') Reading t d -> sizes_fit (c_usize_max c') d -> strings_fit (c_usize_max c') d ->
  lenN (sk_data s') < 2 ^ 63 -> c_ovf_panics c' = false \/ count shape < 2 ^ 63 ->
  exists file src r, npy_new c' {| cur_data := sk_data s'; cur_pos := sk_pos s |} = (Ok file, src) /\ npy_data c' t file = DOk r
  /\ h_shape (nf_header file) = shape /\ h_order (nf_header file) = o
  /\ forall idx, in_bounds shape idx -> forall calls,
     finally (actual c' (calls ++ [CReadAt (flat_index (h_strides (nf_header file)) idx)]) r) = OItem (read_back t d (f idx)).
Proof.
  intros Hwf Hv Hn Hh Hfs Hno Hb H Ha Hz Hsf Hlen Hc.
  assert (El : lenN (map f (storage_order o shape)) = count shape) by (now rewrite lenN_map, storage_order_length).
  destruct (whole_file c c' t d o h _ s s' Hwf Hv ltac:(now rewrite El) Hh H Ha Hz Hsf) as (shape' & Hs' & HR & _).
  rewrite El, Hfs in Hs'. apply Some_inj in Hs' as <-. rewrite map_map in HR.
  apply (by_index c' t (sk_data s') (sk_pos s) d o shape (fun idx => read_back t d (f idx))); auto. eapply written_bytes; eauto.
Qed.
