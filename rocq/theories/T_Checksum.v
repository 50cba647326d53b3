(** Archive entries with checksums. *)
From Verif Require Import M_Base M_Text M_TypeStr M_PyLit M_IO M_Header M_Read M_Serialize M_DTypeErr M_NpyReader M_Source M_Checksum.
From Verif Require Import S_Text S_TypeStr S_DType S_Shape S_Header S_Elem S_Strings S_Reader S_Source P_Base P_IO P_Reader P_Source P_Checksum T_Elem T_Reader T_Source.
Open Scope N_scope.

(** * C86: a checksum that does not agree *)
(** The claim "an array read out of an archive is the one stored in it, or there is an error" needs somebody to look at the checksum.
    An entry whose bytes are a whole array is read without the checksum being compared, all at once ... *)
Theorem C86_into_vec_partial : forall c t pieces hd vs rest, Forall (fun p => p <> []) pieces -> run (into_vec_prog c t) (List.concat pieces) = (Ok (hd, vs), rest) ->
  forall agrees, fst (into_vec_source c t (entry_source pieces agrees)) = Done (Ok (hd, vs)).
Proof. exact checksum_vec. Qed.
Print Assumptions C86_into_vec_partial.
(** ... or item by item, also when the caller goes on behind the last one. *)
Theorem C86_iterate_partial : forall c t pieces f src' r (blocks : list bytes) vs more, Forall (fun p => p <> []) pieces -> bytes_ok (List.concat pieces) -> strings_fit (c_usize_max c) (h_dtype (nf_header f)) ->
  npy_new c (from_start (List.concat pieces)) = (Ok f, src') -> npy_data c t f = DOk r ->
  cur_rest (nf_src f) = List.concat blocks ++ more -> stored t (h_dtype (nf_header f)) blocks (map Some vs) -> lenN vs = h_n_records (nf_header f) ->
  forall agrees, exists s q, open_source c (entry_source pieces agrees) = (Done (Ok (nf_header f)), s) /\ data_source c t (nf_header f) s = DOk q
  /\ forall m, fst (sr_nexts c (List.length vs + m) q) = map item vs ++ repeat None m.
Proof. exact checksum_iterate. Qed.
Print Assumptions C86_iterate_partial.
(** Exactly when it is reported, whatever the bytes are and whatever is read: if they do not settle the result. Otherwise the result is the one for an intact entry. *)
Theorem C86_exact_partial : forall A (p : rprog A) pieces, Forall (fun q => q <> []) pieces ->
  (fst (run_source p (entry_source pieces false)) = Failed bad_checksum <-> forall r rest, ~ ends_within p (List.concat pieces) r rest)
  /\ (fst (run_source p (entry_source pieces false)) <> Failed bad_checksum -> fst (run_source p (entry_source pieces false)) = fst (run_source p (entry_source pieces true))).
Proof. exact @checksum_exact. Qed.
Print Assumptions C86_exact_partial.
(** The claim is false: five numbers stored, one byte of them changed in the archive, the checksum does not agree, and other numbers are read without an error. *)
Definition C86_changed : bytes := npy_text "'<u2'" "(5,)" [1; 0; 2; 0; 3; 0; 4; 0; 6; 0].
Definition C86_pieces : list bytes := [takeN 40 C86_changed; dropN 40 C86_changed].
Theorem C86_refuted : exists c t stored_bytes pieces hd vs vs' rest, Forall (fun q => q <> []) pieces
  /\ stored_bytes <> List.concat pieces
  /\ run (into_vec_prog c t) stored_bytes = (Ok (hd, vs), rest) /\ vs' <> vs
  /\ fst (into_vec_source c t (entry_source pieces false)) = Done (Ok (hd, vs')).
Proof.
  exists le64, (RInt false W2), C70_file, C86_pieces. eexists _, _, (map XInt [1; 2; 3; 4; 6]%Z), _.
  split; [ constructor; [ vm_compute; discriminate | constructor; [ vm_compute; discriminate | constructor ] ] | ]. split; [ vm_compute; discriminate | ]. split; [ vm_compute; reflexivity | ]. split; [ vm_compute; discriminate | vm_compute; reflexivity ].
Qed.
Print Assumptions C86_refuted.
(** The hypotheses are met; an entry that is cut short is refused with the checksum's error, and one whose bytes are no array with the reader's own. *)
Example C86_case :
  (exists hd rest, run (into_vec_prog le64 (RInt false W2)) (List.concat C86_pieces) = (Ok (hd, map XInt [1; 2; 3; 4; 6]%Z), rest))
  /\ (exists f src' r, npy_new le64 (from_start (List.concat C86_pieces)) = (Ok f, src') /\ npy_data le64 (RInt false W2) f = DOk r
      /\ cur_rest (nf_src f) = List.concat [[1; 0]; [2; 0]; [3; 0]; [4; 0]; [6; 0]] ++ []
      /\ stored (RInt false W2) (h_dtype (nf_header f)) [[1; 0]; [2; 0]; [3; 0]; [4; 0]; [6; 0]] (map Some [XInt 1; XInt 2; XInt 3; XInt 4; XInt 6])
      /\ lenN [XInt 1; XInt 2; XInt 3; XInt 4; XInt 6] = h_n_records (nf_header f))
  /\ fst (into_vec_source le64 (RInt false W2) (entry_source [takeN (C70_head + 3) C86_changed] false)) = Failed bad_checksum
  /\ fst (into_vec_source le64 (RInt false W2) (entry_source [takeN 20 C86_changed] true)) = Done (Err EUnexpectedEof)
  /\ exists m, fst (into_vec_source le64 (RInt false W2) (entry_source [lit "NUMPYNUMPY"] false)) = Done (Err (EData m)).
Proof.
  split. { eexists _, _. vm_compute. reflexivity. }
  split. { eexists _, _, _. split; [ vm_compute; reflexivity | ]. split; [ vm_compute; reflexivity | ]. split; [ vm_compute; reflexivity | ]. split; [ | vm_compute; reflexivity ].
    cbn [map nf_header h_dtype]. repeat (constructor; [ split; [ vm_compute; reflexivity | split; [ apply bytes_ok_dec; vm_compute; reflexivity | vm_compute; reflexivity ] ] | ]). constructor. }
  split; [ vm_compute; reflexivity | ]. split; [ vm_compute; reflexivity | ]. eexists. vm_compute. reflexivity.
Qed.
