(** Theorems about every sequence of calls on a reader. *)
From Coq Require Import String.
From Verif Require Import M_Base M_Text M_TypeStr M_IO M_Header M_Read M_Serialize M_NpyReader.
From Verif Require Import S_Text S_TypeStr S_DType S_Shape S_Header S_Elem S_Strings S_Reader S_Fault S_History.
From Verif Require Import P_Base P_Header P_History T_Elem T_Reader.
Open Scope N_scope.

(** What is said to any calls, and where the reader and its source are afterwards, exactly; errors and panics included. *)
Theorem C65_exact : forall c t src f src' r calls ss i p,
  bytes_ok (cur_data src) -> npy_new c src = (Ok f, src') -> npy_data c t f = DOk r -> addressable c f ->
  (exists r', perform c calls r = (ss, r') /\ nr_index r' = i /\ nr_src r' = {| cur_data := cur_data src; cur_pos := p |})
  <-> history (c_usize_max c) t (h_dtype (nf_header f)) (h_n_records (nf_header f)) (cur_data src) calls (0, cur_pos (nf_src f)) ss (i, p).
Proof. exact history_exact. Qed.
Print Assumptions C65_exact.
(** Every sequence of calls has exactly one history. *)
Theorem C65_one_history : forall c t src f src' r calls,
  bytes_ok (cur_data src) -> npy_new c src = (Ok f, src') -> npy_data c t f = DOk r -> addressable c f ->
  exists ss i p, history (c_usize_max c) t (h_dtype (nf_header f)) (h_n_records (nf_header f)) (cur_data src) calls (0, cur_pos (nf_src f)) ss (i, p)
    /\ forall ss' i' p', history (c_usize_max c) t (h_dtype (nf_header f)) (h_n_records (nf_header f)) (cur_data src) calls (0, cur_pos (nf_src f)) ss' (i', p') ->
       ss' = ss /\ i' = i /\ p' = p.
Proof. exact history_total. Qed.
Print Assumptions C65_one_history.
(** The source never gets ahead of the items and never catches up with them; it falls behind only when an item cannot be read. *)
Theorem C65_behind : forall c t src f src' r calls ss i p,
  bytes_ok (cur_data src) -> npy_new c src = (Ok f, src') -> npy_data c t f = DOk r -> addressable c f -> forall j q,
  history (c_usize_max c) t (h_dtype (nf_header f)) (h_n_records (nf_header f)) (cur_data src) calls (j, q) ss (i, p) ->
  p + j * size (h_dtype (nf_header f)) <= q + i * size (h_dtype (nf_header f))
  /\ (Forall (fun s => ~ item_error s) ss -> p + j * size (h_dtype (nf_header f)) = q + i * size (h_dtype (nf_header f))).
Proof. exact opened_behind. Qed.
Print Assumptions C65_behind.
(** If the data is complete and its broken items are found out by their last bytes, all calls see the items of the file, whatever the type. *)
Theorem C65_in_order : forall c t src f src' r blocks items more calls,
  bytes_ok (cur_data src) -> npy_new c src = (Ok f, src') -> npy_data c t f = DOk r -> addressable c f ->
  cur_rest (nf_src f) = List.concat blocks ++ more -> stored t (h_dtype (nf_header f)) blocks items -> lenN items = h_n_records (nf_header f) ->
  noticed_at_end t (h_dtype (nf_header f)) blocks ->
  map coarse (fst (perform c calls r)) = ideal (c_usize_max c) items calls 0.
Proof. exact in_order. Qed.
Print Assumptions C65_in_order.

(** Items of a flag and a byte; the flag of the first item is broken.  The byte of the first item is then taken for the flag of the
    second, and the end of the header for the flag of the first; by then two bytes behind, it gives the second item for the third. *)
Definition C65_type : rty := RStruct [(lit "flag", RBool); (lit "n", RInt false W1)].
Definition C65_src : cursor := from_start (npy_text "[('flag', '|b1'), ('n', '|u1')]" "(3,)" [2; 1; 1; 8; 0; 9]).
Definition C65_calls : list call := [CLen; CNext; CNext; CSeek 0; CNext; CReadAt 2; CReadAt 3; CNext; CHint].
Definition C65_said : list said :=
  [Remaining 3; Failed (EData (lit "invalid value for bool: 2")); Got (XRec [XBool true; XInt 1]); Moved; Failed (EData (lit "invalid value for bool: 10"));
   Got (XRec [XBool true; XInt 8]); Panicked; NoMore; Between 0 (Some 0)].
Example C65_case : exists f src' r i p, bytes_ok (cur_data C65_src) /\ npy_new le64 C65_src = (Ok f, src') /\ npy_data le64 C65_type f = DOk r /\ addressable le64 f
  /\ history (c_usize_max le64) C65_type (h_dtype (nf_header f)) (h_n_records (nf_header f)) (cur_data C65_src) C65_calls (0, cur_pos (nf_src f)) C65_said (i, p).
Proof.
  eexists _, _, _, _, _. assert (Hb : bytes_ok (cur_data C65_src)) by (apply bytes_ok_dec; vm_compute; reflexivity).
  split; [ exact Hb | ]. split; [ vm_compute; reflexivity | ]. split; [ vm_compute; reflexivity | ].
  match goal with |- ?A /\ _ => assert (Ha : A) end.
  { split; [ vm_compute; repeat split; discriminate | split; [ vm_compute; reflexivity | right; vm_compute; reflexivity ] ]. }
  split; [ exact Ha | ]. eapply (proj1 (C65_exact le64 C65_type C65_src _ _ _ C65_calls C65_said _ _ Hb ltac:(vm_compute; reflexivity) ltac:(vm_compute; reflexivity) Ha)).
  eexists. split; [ vm_compute; reflexivity | ]. split; vm_compute; reflexivity.
Qed.

(** One character per item: the broken item is found out by its last byte and the calls after it are right. *)
Definition C65_ordered : cursor := from_start (npy_text "'>U1'" "(3,)" [0;0;0;97; 0;0;216;0; 0;1;246;0]).
Example C65_in_order_case : exists f src' r blocks, npy_new le64 C65_ordered = (Ok f, src') /\ npy_data le64 RString f = DOk r /\ addressable le64 f
  /\ cur_rest (nf_src f) = List.concat blocks ++ [] /\ stored RString (h_dtype (nf_header f)) blocks [Some (XStr [97]); None; Some (XStr [128512])]
  /\ h_n_records (nf_header f) = 3 /\ noticed_at_end RString (h_dtype (nf_header f)) blocks
  /\ fst (perform le64 [CNext; CNext; CNext; CReadAt 1; CReadAt 0] r) =
     [Got (XStr [97]); Failed (EData (lit "invalid UTF-32 code unit: d800")); Got (XStr [128512]); Failed (EData (lit "invalid UTF-32 code unit: d800")); Got (XStr [97])].
Proof.
  eexists _, _, _, [[0;0;0;97]; [0;0;216;0]; [0;1;246;0]]. split; [ vm_compute; reflexivity | ]. split; [ vm_compute; reflexivity | ].
  split. { split; [ vm_compute; (exact I || discriminate) | split; [ vm_compute; reflexivity | right; vm_compute; reflexivity ] ]. }
  split; [ vm_compute; reflexivity | ].
  split. { repeat (constructor; [ split; [ reflexivity | split; [ apply bytes_ok_dec; reflexivity | vm_compute; reflexivity ] ] | ]). constructor. }
  split; [ reflexivity | ]. split; [ | vm_compute; reflexivity ]. cbn [h_dtype nf_header].
  constructor; [ intros H; vm_compute in H; discriminate H | ]. constructor; [ | constructor; [ intros H; vm_compute in H; discriminate H | constructor ] ].
  intros _. eexists. apply (char_value RString {| ts_endianness := Big; ts_char := TUnicodeStr; ts_size := 1; ts_units := None |} 0 [] [0;0;216;0] (lit "d800"));
    [ right; split; reflexivity | reflexivity | reflexivity | reflexivity | constructor | reflexivity | ].
  split; [ repeat constructor; cbv; intuition discriminate | ]. split; [ reflexivity | ]. right. eexists _, _. split; [ reflexivity | discriminate ].
Qed.

(** Seeking to an item of the file can fail after an item that could not be read: the position would be before the start. *)
Definition C65_long : cursor := from_start (npy_text "'<U40'" "(1,)" ([255;255;255;255] ++ repeat 0 156)).
Theorem C65_seek_refuted : exists c t src f src' r items i calls,
  bytes_ok (cur_data src) /\ npy_new c src = (Ok f, src') /\ npy_data c t f = DOk r /\ complete_file t f items /\ addressable c f /\ i < lenN items
  /\ fst (perform c (calls ++ [CSeek i]) r) = fst (perform c calls r) ++ [Failed EInvalidInput].
Proof.
  exists le64, RString, C65_long. eexists _, _, _. exists [None], 0, [CNext].
  split; [ apply bytes_ok_dec; vm_compute; reflexivity | ]. split; [ vm_compute; reflexivity | ]. split; [ vm_compute; reflexivity | ].
  split; [ | split; [ | split; vm_compute; reflexivity ] ].
  - exists [[255;255;255;255] ++ repeat 0 156], []. split; [ vm_compute; reflexivity | ]. split; [ | vm_compute; reflexivity ].
    repeat (constructor; [ split; [ reflexivity | split; [ apply bytes_ok_dec; reflexivity | vm_compute; reflexivity ] ] | ]). constructor.
  - split; [ vm_compute; (exact I || discriminate) | split; [ vm_compute; reflexivity | right; vm_compute; reflexivity ] ].
Qed.
Print Assumptions C65_seek_refuted.
