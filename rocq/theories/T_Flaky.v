(** Readers over sources that can be read and sought in, both of which may fail. *)
From Verif Require Import M_Base M_Text M_TypeStr M_IO M_Header M_Read M_Serialize M_NpyReader M_Source M_Flaky.
From Verif Require Import S_Text S_TypeStr S_DType S_Shape S_Header S_Elem S_Strings S_Reader S_Fault S_Source S_History S_Flaky.
From Verif Require Import P_Base P_Header P_Source P_History P_Flaky T_Elem T_Reader T_Source.
Open Scope N_scope.

(** What can be said to any calls, and where the reader and its source are afterwards, exactly: the histories of S_Flaky.v, all of which
    some source causes. *)
Theorem C72_exact : forall c t src f src' r calls ss i p,
  bytes_ok (cur_data src) -> npy_new c src = (Ok f, src') -> npy_data c t f = DOk r -> addressable c f ->
  (exists reads seeks r', flaky_perform c calls (with_plans reads seeks r) = (ss, r') /\ fr_index r' = i /\ fr_src r' = {| cur_data := cur_data src; cur_pos := p |})
  <-> flaky_history (c_usize_max c) t (h_dtype (nf_header f)) (h_n_records (nf_header f)) (cur_data src) calls (0, cur_pos (nf_src f)) ss (i, p).
Proof. exact flaky_exact. Qed.
Print Assumptions C72_exact.
(** Errors of seeking do no harm: the calls that met one might as well not have been made. *)
Theorem C72_failed_moves : forall c calls r reads seeks, steady reads ->
  let '(calls', answers) := answered calls (fst (flaky_perform c calls (with_plans reads seeks r))) in fst (perform c calls' r) = answers.
Proof. exact failed_moves. Qed.
Print Assumptions C72_failed_moves.
(** Errors of reading do: from then on every item is taken from before its place, however the caller moves about. *)
Theorem C72_displaced : forall c t src f src' r calls1 ss1 e calls2 ss2 j v reads seeks,
  bytes_ok (cur_data src) -> npy_new c src = (Ok f, src') -> npy_data c t f = DOk r -> addressable c f ->
  List.length calls1 = List.length ss1 -> List.length calls2 = List.length ss2 ->
  fst (flaky_perform c (calls1 ++ CNext :: calls2 ++ [CReadAt j]) (with_plans reads seeks r)) = ss1 ++ SourceError e :: ss2 ++ [Told (S_History.Got v)] ->
  let z := size (h_dtype (nf_header f)) in
  exists q b rest, q < cur_pos (nf_src f) + j * z /\ dropN q (cur_data src) = b ++ rest /\ lenN b = z /\ decode t (h_dtype (nf_header f)) b = Some v.
Proof. exact displaced. Qed.
Print Assumptions C72_displaced.

(** The five 16-bit integers of C70.  A failed seek, and then everything as it should be; a failed read, and [read_at(2)] gives item 1. *)
Definition got (n : Z) : told := Told (S_History.Got (XInt n)).
Example C72_case : exists f src' r, npy_new le64 (from_start C70_file) = (Ok f, src') /\ npy_data le64 (RInt false W2) f = DOk r /\ addressable le64 f
  /\ steady [Upto 0; Retry; Upto 4]
  /\ fst (flaky_perform le64 [CNext; CReadAt 3; CNext; CReadAt 4; CSeek 0; CNext] (with_plans [Upto 0; Retry; Upto 4] [Some 9; None] r))
     = [got 1; SourceError 9; got 2; got 5; Told Moved; got 1]
  /\ answered [CNext; CReadAt 3; CNext; CReadAt 4; CSeek 0; CNext] [got 1; SourceError 9; got 2; got 5; Told Moved; got 1]
     = ([CNext; CNext; CReadAt 4; CSeek 0; CNext], [S_History.Got (XInt 1); S_History.Got (XInt 2); S_History.Got (XInt 5); Moved; S_History.Got (XInt 1)])
  /\ fst (flaky_perform le64 ([CNext] ++ CNext :: [CLen; CSeek 5] ++ [CReadAt 2]) (with_plans [Upto 1; Fail 9] [] r))
     = [got 1] ++ SourceError 9 :: [Told (Remaining 3); Told Moved] ++ [got 2]
  /\ fst (flaky_perform le64 [CNext; CReadAt 2; CNext; CReadAt 0] (with_plans [Upto 0; Fail 9] [] r)) = [SourceError 9; got 768; got 1024; got 266].
Proof.
  eexists _, _, _. split; [ vm_compute; reflexivity | ]. split; [ vm_compute; reflexivity | ].
  split. { split; [ vm_compute; repeat split; discriminate | split; [ vm_compute; reflexivity | right; vm_compute; reflexivity ] ]. }
  split; [ repeat constructor | ]. split; [ vm_compute; reflexivity | ]. split; [ vm_compute; reflexivity | ]. split; vm_compute; reflexivity.
Qed.
(** The edges: the end of the items; no seek, and so no error of it, when already in place; nothing moves when [read_at] is out of bounds; one
    byte short, the rest of the file is used up by the item that is cut; and a read that gives nothing ends the item, whatever the next read would do. *)
Example C72_edges : exists f src' r, npy_new le64 (from_start C70_file) = (Ok f, src') /\ npy_data le64 (RInt false W2) f = DOk r
  /\ fst (flaky_perform le64 [CSeek 5; CNext; CSeek 4; CNext; CNext] (with_plans [] [] r)) = [Told Moved; Told NoMore; Told Moved; got 5; Told NoMore]
  /\ fst (flaky_perform le64 [CSeek 0; CSeek 6; CReadAt 5; CNext] (with_plans [] [Some 9] r)) = [Told Moved; Told Panicked; Told Panicked; got 1].
Proof. eexists _, _, _. split; [ vm_compute; reflexivity | ]. split; [ vm_compute; reflexivity | ]. split; vm_compute; reflexivity. Qed.
Example C72_edges_cut : let file := takeN (lenN C70_file - 1) C70_file in exists f src' r, npy_new le64 (from_start file) = (Ok f, src') /\ npy_data le64 (RInt false W2) f = DOk r
  /\ (let '(ss, r') := flaky_perform le64 [CReadAt 4] (with_plans [] [] r) in ss = [Told (S_History.Failed EUnexpectedEof)] /\ cur_pos (fr_src r') = lenN file /\ fr_index r' = 5)
  /\ fst (flaky_perform le64 [CReadAt 4] (with_plans [Upto 9; Upto 9; Fail 9] [] r)) = [Told (S_History.Failed EUnexpectedEof)].
Proof. eexists _, _, _. split; [ vm_compute; reflexivity | ]. split; [ vm_compute; reflexivity | ]. split; [ vm_compute; repeat split; reflexivity | vm_compute; reflexivity ]. Qed.
(** So an item asked for by its number need not be the one with that number. *)
Theorem C72_read_at_refuted : exists c t src f src' r calls j v reads seeks items cur,
  npy_new c src = (Ok f, src') /\ npy_data c t f = DOk r /\ npy_into_vec c t f = (Ok items, cur)
  /\ (exists ss, fst (flaky_perform c (calls ++ [CReadAt j]) (with_plans reads seeks r)) = ss ++ [Told (S_History.Got v)])
  /\ nth_error items (N.to_nat j) <> Some v.
Proof.
  exists le64, (RInt false W2), (from_start C70_file). eexists _, _, _. exists [CNext], 2, (XInt 2), [Fail 9], []. eexists _, _.
  split; [ vm_compute; reflexivity | ]. split; [ vm_compute; reflexivity | ]. split; [ vm_compute; reflexivity | ]. split; [ exists [SourceError 9]; vm_compute; reflexivity | ].
  cbn. discriminate.
Qed.
Print Assumptions C72_read_at_refuted.
