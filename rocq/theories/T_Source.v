(** Reading from a source that fails. *)
From Verif Require Import M_Base M_Text M_TypeStr M_PyLit M_IO M_Header M_Read M_Serialize M_DTypeErr M_NpyReader M_Source.
From Verif Require Import S_Text S_TypeStr S_DType S_Shape S_Header S_Elem S_Strings S_Reader S_Source P_Base P_IO P_Reader P_Source T_Elem T_Reader.
Open Scope N_scope.

(** * C70: an error of the source is passed on *)
(** Opening: the header if the source fails behind it, the source's error if it fails within it. *)
Theorem C70_open : forall c bs f src' k e post s, npy_new c (from_start bs) = (Ok f, src') -> fails_after k bs e post s ->
  let h := lenN bs - lenN (cur_rest (nf_src f)) in
  (k < h -> open_source c s = (Failed e, post))
  /\ (h <= k -> exists s', open_source c s = (Done (Ok (nf_header f)), s') /\ fails_after (k - h) (cur_rest (nf_src f)) e post s').
Proof. exact open_fault. Qed.
Print Assumptions C70_open.
(** Reading everything: all of it or the error, never a part. *)
Theorem C70_into_vec : forall c t bs hd vs rest k e post s, run (into_vec_prog c t) bs = (Ok (hd, vs), rest) -> fails_after k bs e post s ->
  (k < lenN bs - lenN rest -> into_vec_source c t s = (Failed e, post))
  /\ (lenN bs - lenN rest <= k -> fst (into_vec_source c t s) = Done (Ok (hd, vs))).
Proof. exact vec_fault. Qed.
Print Assumptions C70_into_vec.
(** Iterating: every item that arrived whole, then the error; what the next calls see is what the source has next. *)
Theorem C70_iterate : forall c t bs f src' r k e post s (blocks : list bytes) vs more, bytes_ok bs -> strings_fit (c_usize_max c) (h_dtype (nf_header f)) ->
  npy_new c (from_start bs) = (Ok f, src') -> npy_data c t f = DOk r ->
  cur_rest (nf_src f) = List.concat blocks ++ more -> stored t (h_dtype (nf_header f)) blocks (map Some vs) -> lenN vs = h_n_records (nf_header f) ->
  let z := size (h_dtype (nf_header f)) in
  k < lenN vs * z -> fails_after k (cur_rest (nf_src f)) e post s ->
  exists q after, data_source c t (nf_header f) s = DOk q
  /\ after = {| sr_header := nf_header f; sr_type := sr_type q; sr_src := post; sr_index := k / z + 1 |}
  /\ forall m, sr_nexts c (N.to_nat (k / z) + S m) q = let '(xs, q') := sr_nexts c m after in (map item (firstn (N.to_nat (k / z)) vs) ++ Some (Failed e) :: xs, q').
Proof. exact data_fault. Qed.
Print Assumptions C70_iterate.
(** Whatever the bytes are, and whatever is read: the error is passed on unless the bytes before it settle the result. *)
Theorem C70_exact : forall A (p : rprog A) bs k e post s, fails_after k bs e post s ->
  (forall r rest, ends_within p (takeN k bs) r rest -> fst (run_source p s) = Done r)
  /\ ((forall r rest, ~ ends_within p (takeN k bs) r rest) -> run_source p s = (Failed e, post)).
Proof.
  intros A p bs k e post s (pre & Hl & <- & ->). destruct (source_exact p pre e post Hl) as (H1 & H2). split; [ | exact H2 ].
  intros r rest W. destruct (H1 r rest W) as (s' & -> & _). reflexivity.
Qed.
Print Assumptions C70_exact.
(** A source without errors is read as in C31 (`M_IO.v`), empty reads and all. *)
Theorem C70_without_errors : forall A (p : rprog A) s, run_source p (delivers s []) = (Done (fst (run_sched p s)), delivers (snd (run_sched p s)) []).
Proof. exact @source_sched. Qed.
Print Assumptions C70_without_errors.
(** 16-bit integers in a file of five items; the source fails after three of the ten bytes of data. *)
Definition C70_file : bytes := npy_text "'<u2'" "(5,)" [1; 0; 2; 0; 3; 0; 4; 0; 5; 0].
Definition C70_head : N := lenN C70_file - 10.
Definition C70_cut (k : N) (post : source) : source :=
  [Interrupted; Chunk (takeN 9 C70_file); Interrupted; Chunk (dropN 9 (takeN (C70_head + k) C70_file)); Fault 5] ++ post.
Definition C70_rest (k : N) : source := [Chunk (dropN (C70_head + k) C70_file)].
Definition num (n : Z) : option (outcome val) := item (XInt n).
Definition C70_seen (k : N) (n : nat) : option (list (option (outcome val))) :=
  match open_source le64 (C70_cut k (C70_rest k)) with
  | (Done (Ok h), s) => match data_source le64 (RInt false W2) h s with DOk q => Some (fst (sr_nexts le64 n q)) | _ => None end
  | _ => None
  end.
Example C70_case :
  fails_after (C70_head + 3) C70_file 5 (C70_rest 3) (C70_cut 3 (C70_rest 3))
  /\ gives (dropN 3 [1; 0; 2; 0; 3; 0; 4; 0; 5; 0]) (C70_rest 3)
  /\ (exists f src' r, npy_new le64 (from_start C70_file) = (Ok f, src') /\ npy_data le64 (RInt false W2) f = DOk r
      /\ cur_rest (nf_src f) = List.concat [[1; 0]; [2; 0]; [3; 0]; [4; 0]; [5; 0]] ++ []
      /\ stored (RInt false W2) (h_dtype (nf_header f)) [[1; 0]; [2; 0]; [3; 0]; [4; 0]; [5; 0]] (map Some [XInt 1; XInt 2; XInt 3; XInt 4; XInt 5])
      /\ lenN [XInt 1; XInt 2; XInt 3; XInt 4; XInt 5] = h_n_records (nf_header f))
  /\ C70_seen 3 2 = Some [num 1; Some (Failed 5)]
  /\ into_vec_source le64 (RInt false W2) (C70_cut 3 (C70_rest 3)) = (Failed 5, C70_rest 3)
  /\ open_source le64 ([Chunk (takeN 20 C70_file); Fault 5] ++ [Chunk (dropN 20 C70_file)]) = (Failed 5, [Chunk (dropN 20 C70_file)])
  /\ into_vec_source le64 (RInt false W2) [Chunk (takeN 4 C70_file); Fault 7] = (Failed 7, [])
  /\ exists m, fst (into_vec_source le64 (RInt false W2) [Chunk (lit "NUMPYNUMPY"); Fault 7]) = Done (Err (EData m)).
Proof.
  split. { exists [None; Some (takeN 9 C70_file); None; Some (dropN 9 (takeN (C70_head + 3) C70_file))]. split; [ repeat constructor; discriminate | ]. split; vm_compute; reflexivity. }
  split. { exists [Some (dropN (C70_head + 3) C70_file)]. split; [ repeat constructor; discriminate | ]. split; vm_compute; reflexivity. }
  split. { eexists _, _, _. split; [ vm_compute; reflexivity | ]. split; [ vm_compute; reflexivity | ]. split; [ vm_compute; reflexivity | ]. split; [ | vm_compute; reflexivity ].
    cbn [map nf_header h_dtype]. repeat (constructor; [ split; [ vm_compute; reflexivity | split; [ apply bytes_ok_dec; vm_compute; reflexivity | vm_compute; reflexivity ] ] | ]). constructor. }
  split; [ vm_compute; reflexivity | ]. split; [ vm_compute; reflexivity | ]. split; [ vm_compute; reflexivity | ]. split; [ vm_compute; reflexivity | ].
  eexists. vm_compute. reflexivity.
Qed.

(** * C71: going on after an error of the source *)
(** The source goes on where it was, between two items: the items in order, but never the last one. *)
Theorem C71_boundary_partial : forall c t bs f src' r j e post s (blocks : list bytes) vs more, bytes_ok bs -> strings_fit (c_usize_max c) (h_dtype (nf_header f)) ->
  npy_new c (from_start bs) = (Ok f, src') -> npy_data c t f = DOk r ->
  cur_rest (nf_src f) = List.concat blocks ++ more -> stored t (h_dtype (nf_header f)) blocks (map Some vs) -> lenN vs = h_n_records (nf_header f) ->
  let z := size (h_dtype (nf_header f)) in 0 < z ->
  j < lenN vs -> fails_after (j * z) (cur_rest (nf_src f)) e post s -> gives (dropN (j * z) (cur_rest (nf_src f))) post ->
  exists q, data_source c t (nf_header f) s = DOk q
  /\ fst (sr_nexts c (S (List.length vs)) q) = map item (firstn (N.to_nat j) vs) ++ Some (Failed e) :: map item (removelast (skipn (N.to_nat j) vs)) ++ [None].
Proof. exact boundary_fault. Qed.
Print Assumptions C71_boundary_partial.
(** Anywhere: the items are cut from where the error was, not from where an item begins. *)
Theorem C71_from_the_error : forall c t bs f src' r k e post s (blocks : list bytes) vs more vs2 (blocks2 : list bytes) tail, bytes_ok bs -> strings_fit (c_usize_max c) (h_dtype (nf_header f)) ->
  npy_new c (from_start bs) = (Ok f, src') -> npy_data c t f = DOk r ->
  cur_rest (nf_src f) = List.concat blocks ++ more -> stored t (h_dtype (nf_header f)) blocks (map Some vs) -> lenN vs = h_n_records (nf_header f) ->
  let z := size (h_dtype (nf_header f)) in
  k < lenN vs * z -> fails_after k (cur_rest (nf_src f)) e post s -> gives (dropN k (cur_rest (nf_src f))) post ->
  dropN k (cur_rest (nf_src f)) = List.concat blocks2 ++ tail -> stored t (h_dtype (nf_header f)) blocks2 (map Some vs2) -> k / z + 1 + lenN vs2 <= lenN vs ->
  exists q, data_source c t (nf_header f) s = DOk q
  /\ fst (sr_nexts c (N.to_nat (k / z) + S (List.length vs2)) q) = map item (firstn (N.to_nat (k / z)) vs) ++ Some (Failed e) :: map item vs2.
Proof. exact on_fault. Qed.
Print Assumptions C71_from_the_error.
(** However the source goes on and however long the caller does: never as many items as the file has. *)
Theorem C71_never_all : forall c t bs f src' r k e post s (blocks : list bytes) vs more, bytes_ok bs -> strings_fit (c_usize_max c) (h_dtype (nf_header f)) ->
  npy_new c (from_start bs) = (Ok f, src') -> npy_data c t f = DOk r ->
  cur_rest (nf_src f) = List.concat blocks ++ more -> stored t (h_dtype (nf_header f)) blocks (map Some vs) -> lenN vs = h_n_records (nf_header f) ->
  k < lenN vs * size (h_dtype (nf_header f)) -> fails_after k (cur_rest (nf_src f)) e post s ->
  exists q, data_source c t (nf_header f) s = DOk q /\ forall m, lenN (filter is_item (fst (sr_nexts c m q))) < lenN vs.
Proof. exact never_all. Qed.
Print Assumptions C71_never_all.
(** Between two items; and within one: 768, 1024, 1280 instead of 3, 4, 5. *)
Example C71_case : C70_seen 4 6 = Some [num 1; num 2; Some (Failed 5); num 3; num 4; None]
  /\ C70_seen 3 6 = Some [num 1; Some (Failed 5); num 768; num 1024; num 1280; None]
  /\ stored (RInt false W2) (plain Little TUint 2) [[0; 3]; [0; 4]; [0; 5]] (map Some [XInt 768; XInt 1024; XInt 1280])
  /\ dropN 3 [1; 0; 2; 0; 3; 0; 4; 0; 5; 0] = List.concat [[0; 3]; [0; 4]; [0; 5]] ++ [0].
Proof.
  split; [ vm_compute; reflexivity | ]. split; [ vm_compute; reflexivity | ]. split; [ | vm_compute; reflexivity ].
  cbn [map]. repeat (constructor; [ split; [ vm_compute; reflexivity | split; [ apply bytes_ok_dec; vm_compute; reflexivity | vm_compute; reflexivity ] ] | ]). constructor.
Qed.
(** A caller that passes over the error gets values that are not in the file. *)
Theorem C71_refuted : exists c t bs f src' s e post q v, npy_new c (from_start bs) = (Ok f, src') /\ fails_after 3 (cur_rest (nf_src f)) e post s
  /\ gives (dropN 3 (cur_rest (nf_src f))) post /\ data_source c t (nf_header f) s = DOk q
  /\ nth_error (fst (sr_nexts c 3 q)) 2 = Some (item v)
  /\ exists items cur, npy_into_vec c t f = (Ok items, cur) /\ ~ In v items.
Proof.
  exists le64, (RInt false W2), C70_file. eexists _, _, [Chunk [1; 0; 2]; Fault 5; Chunk [0; 3; 0; 4; 0; 5; 0]], 5, [Chunk [0; 3; 0; 4; 0; 5; 0]], _, (XInt 768).
  split; [ vm_compute; reflexivity | ].
  split. { exists [Some [1; 0; 2]]. split; [ repeat constructor; discriminate | ]. split; vm_compute; reflexivity. }
  split. { exists [Some [0; 3; 0; 4; 0; 5; 0]]. split; [ repeat constructor; discriminate | ]. split; vm_compute; reflexivity. }
  split; [ vm_compute; reflexivity | ]. split; [ vm_compute; reflexivity | ]. eexists _, _. split; [ vm_compute; reflexivity | ].
  intros H. cbn [In] in H. repeat destruct H as [ H | H ]; try discriminate H. contradiction.
Qed.
Print Assumptions C71_refuted.
