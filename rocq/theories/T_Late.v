(** C30, C15: exactly which types read items in order after an error. *)
From Coq Require Import String.
From Verif Require Import M_Base M_Text M_TypeStr M_IO M_Header M_Read M_Serialize M_NpyReader M_Write.
From Verif Require Import S_Text S_TypeStr S_DType S_Shape S_Header S_Elem S_Strings S_Reader S_Write S_Fault S_History S_Late.
From Verif Require Import P_Base P_Header P_Late T_Elem T_Reader.
Open Scope N_scope.

(** All complete files of dtype [d] show their items to any calls, also after errors, exactly if only the last part of an item can be wrong. *)
Theorem C30_exact : forall c t d, wf_dtype d -> top_level d -> short_header d (NDimensional [2 * size d + 1]) -> strings_fit (c_usize_max c) d ->
  accepts (c_usize_max c) Reading t d -> (exists k, num_bytes c d = Some k) -> size d < 2 ^ 30 ->
  (forall src f src' r items calls, bytes_ok (cur_data src) -> npy_new c src = (Ok f, src') -> h_dtype (nf_header f) = d -> npy_data c t f = DOk r ->
     complete_file t f items -> addressable c f -> actual c calls r = ideal (c_usize_max c) items calls 0)
  <-> late t d.
Proof.
  exact (fun c t d Hw Ht Hsh Hs Ha Hn Hz => iff_trans (never_behind c t d Hw Ht Hsh Hs Ha Hn Hz) (iff_sym (late_exact c t d Hw Hs Ha))).
Qed.
Print Assumptions C30_exact.
(** [late] and [total] in terms of items. *)
Theorem C30_late_exact : forall c t d, wf_dtype d -> strings_fit (c_usize_max c) d -> accepts (c_usize_max c) Reading t d ->
  late t d <-> forall b, lenN b = size d -> bytes_ok b -> decode t d b = None -> exists msg, unreadable t d b msg.
Proof. exact late_exact. Qed.
Print Assumptions C30_late_exact.
Theorem C30_total_exact : forall c t d, accepts (c_usize_max c) Reading t d ->
  total t d <-> forall b, lenN b = size d -> bytes_ok b -> exists v, decode t d b = Some v.
Proof. exact total_exact. Qed.
Print Assumptions C30_total_exact.

(** A number and then a flag: only the flag can be wrong.  The other way round it cannot be relied upon. *)
Definition C30_number_flag : rty := RStruct [(lit "n", RInt false W2); (lit "flag", RBool)].
Definition C30_flag_number : rty := RStruct [(lit "flag", RBool); (lit "n", RInt false W2)].
Definition C30_late_dtype : dtype := DRecord [(lit "n", plain Big TUint 2); (lit "flag", plain Irrelevant TBool 1)].
Definition C30_early_dtype : dtype := DRecord [(lit "flag", plain Irrelevant TBool 1); (lit "n", plain Big TUint 2)].
Example C30_kinds : wf_dtype C30_late_dtype /\ wf_dtype C30_early_dtype /\ top_level C30_late_dtype /\ short_header C30_early_dtype (NDimensional [2 * size C30_early_dtype + 1])
  /\ strings_fit (c_usize_max le64) C30_late_dtype /\ accepts (c_usize_max le64) Reading C30_number_flag C30_late_dtype /\ accepts (c_usize_max le64) Reading C30_flag_number C30_early_dtype
  /\ num_bytes le64 C30_late_dtype = Some 3 /\ size C30_early_dtype = 3
  /\ late C30_number_flag C30_late_dtype /\ ~ late C30_flag_number C30_early_dtype.
Proof.
  split; [ wf_case | ]. split; [ wf_case | ]. split; [ exact I | ]. split; [ vm_compute; discriminate | ]. split; [ vm_compute; tauto | ].
  split; [ cbn; repeat split; auto; discriminate | ]. split; [ cbn; repeat split; auto; discriminate | ]. split; [ reflexivity | ]. split; [ reflexivity | ].
  split; [ cbn; auto | ]. cbn. intros [ (H & _) | (_ & H) ]; [ exact H | ]. apply Forall_inv in H. discriminate H.
Qed.

(** * C15 *)
(** A complete file [file] of dtype [d] is cut to [p].  That whatever [read_at] gives, after errors too, is the item written there: this
    holds of no type but those whose items are all the same value. *)
Theorem C15_exact : forall c t d, wf_dtype d -> top_level d -> short_header d (NDimensional [2]) -> strings_fit (c_usize_max c) d ->
  accepts (c_usize_max c) Reading t d -> (exists k, num_bytes c d = Some k) -> size d < 2 ^ 30 ->
  (forall file h data blocks items p q f src' r calls j i v,
     bytes_ok file -> run (read_and_interpret c) file = (Ok h, data) -> h_dtype h = d -> data = List.concat blocks ->
     stored t d blocks (map Some items) -> lenN items = h_n_records h -> file = p ++ q -> q <> [] ->
     npy_new c (from_start p) = (Ok f, src') -> npy_data c t f = DOk r -> addressable c f ->
     nth_error calls j = Some (CReadAt i) -> nth_error (actual c calls r) j = Some (OItem v) -> nth_error items (N.to_nat i) = Some v)
  <-> one_value t d.
Proof. exact cut_wrong. Qed.
Print Assumptions C15_exact.
(** An array type of no room has only one value, a flag has two. *)
Example C15_kinds : one_value (RArrU8 0) (plain Irrelevant TByteStr 3) /\ ~ one_value RBool (plain Irrelevant TBool 1)
  /\ wf_dtype (plain Irrelevant TByteStr 3) /\ top_level (plain Irrelevant TByteStr 3) /\ short_header (plain Irrelevant TByteStr 3) (NDimensional [2])
  /\ accepts (c_usize_max le64) Reading (RArrU8 0) (plain Irrelevant TByteStr 3) /\ num_bytes le64 (plain Irrelevant TByteStr 3) = Some 3.
Proof.
  split; [ intros b b' v v' _ _ _ _; cbn; unfold takeN; cbn; congruence | ].
  split; [ intros H; discriminate (H [0] [1] (XBool false) (XBool true) eq_refl ltac:(repeat constructor) eq_refl ltac:(repeat constructor) eq_refl eq_refl) | ].
  split; [ wf_case | ]. split; [ exact I | ]. split; [ vm_compute; discriminate | ]. split; [ cbn; split; [ auto | discriminate ] | reflexivity ].
Qed.
