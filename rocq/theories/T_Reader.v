(** C15, C25, C29, C30, C36, C37, C38: reading items of open files. *)
From Verif Require Import M_Base M_Text M_TypeStr M_IO M_Header M_Read M_Serialize M_NpyReader S_TypeStr S_DType S_Shape S_Header S_Text S_Elem S_Strings S_Reader
  P_Base P_Text P_TypeStr P_IO P_Shape P_Header P_Number P_Elem P_ReadOne P_WriteOne P_Codec P_Sizes P_Strings P_Parse S_Dict P_Interp P_ElemT P_Reader P_Array P_Legacy T_Elem.
Open Scope N_scope.

(** Files for the examples: a version 1 header and data. *)
Definition npy_text (descr shape : string) (data : bytes) : bytes :=
  let txt := (lit "{'descr': " ++ lit descr ++ lit ", 'fortran_order': False, 'shape': " ++ lit shape ++ lit "}" ++ [10])%list in
  (0x93 :: lit "NUMPY" ++ [1; 0; lenN txt; 0] ++ txt ++ data)%list.
Definition from_start (bs : bytes) : cursor := {| cur_data := bs; cur_pos := 0 |}.
Lemma bytes_ok_dec bs : forallb (fun b => b <? 256) bs = true -> bytes_ok bs.
Proof. intros H. apply Forall_forall. intros x Hx. rewrite forallb_forall in H. specialize (H x Hx). lia. Qed.

(** * C29: any history of calls *)
(** Over a complete file of decodable items the calls see the items as if they were a list with a position in it. *)
Theorem C29_histories : forall c t src f src' r items,
  bytes_ok (cur_data src) -> npy_new c src = (Ok f, src') -> npy_data c t f = DOk r ->
  complete_file t f (map Some items) -> addressable c f ->
  forall calls, actual c calls r = ideal (c_usize_max c) (map Some items) calls 0.
Proof.
  exact (fun c t src f src' r items Hb Hf Hr Hc Ha => complete_histories c t src f src' r (map Some items) Hb Hf Hr Hc Ha
    (or_introl (proj2 (Forall_forall _ _) (fun x Hx => let 'ex_intro _ y (conj E _) := proj1 (in_map_iff Some items x) Hx in
       eq_rect (Some y) (fun x => x <> None) ltac:(discriminate) x E)))).
Qed.
Print Assumptions C29_histories.
(** Reading the whole array gives exactly the items of a complete file, and fails for any other. *)
Theorem C29_whole_array : forall c t src f src' r items, strings_fit (c_usize_max c) (h_dtype (nf_header f)) ->
  bytes_ok (cur_data src) -> npy_new c src = (Ok f, src') -> npy_data c t f = DOk r ->
  fst (npy_into_vec c t f) = Ok items <-> complete_file t f (map Some items).
Proof. exact into_vec_exact. Qed.
Print Assumptions C29_whole_array.

Definition C29_src : cursor := {| cur_data := 7 :: npy_text "'>i2'" "(2, 2)" [0;1; 0;2; 255;255; 0;4; 99]; cur_pos := 1 |}.
Example C29_case : exists f src' r, bytes_ok (cur_data C29_src) /\ npy_new le64 C29_src = (Ok f, src') /\ npy_data le64 (RInt true W2) f = DOk r
  /\ complete_file (RInt true W2) f (map Some [XInt 1; XInt 2; XInt (-1); XInt 4]) /\ addressable le64 f
  /\ actual le64 [CNext; CLen; CReadAt 2; CNext; CNext; CSeek 5; CSeek 1; CHint; CNext; CReadAt 4; CNext] r
     = [OItem (XInt 1); OCount 3; OItem (XInt (-1)); OItem (XInt 4); OEnd; OPanicked; ODone; OHint 3 (Some 3); OItem (XInt 2); OPanicked; OItem (XInt (-1))].
Proof.
  eexists _, _, _. split; [ apply bytes_ok_dec; vm_compute; reflexivity | ]. split; [ vm_compute; reflexivity | ]. split; [ vm_compute; reflexivity | ].
  split; [ | split; [ | vm_compute; reflexivity ] ].
  - exists [[0;1]; [0;2]; [255;255]; [0;4]], [99]. split; [ vm_compute; reflexivity | ]. split; [ | vm_compute; reflexivity ].
    repeat (constructor; [ split; [ reflexivity | split; [ apply bytes_ok_dec; reflexivity | vm_compute; reflexivity ] ] | ]). constructor.
  - split; [ vm_compute; (exact I || discriminate) | split; [ vm_compute; reflexivity | right; vm_compute; reflexivity ] ].
Qed.

(** Without the bound on the number of items: with checked arithmetic, a seek inside a file of 2^64-1 empty items panics. *)
Lemma concat_empty {A} n : List.concat (repeatN (@nil A) n) = [].
Proof. unfold repeatN. induction (N.to_nat n); cbn; auto. Qed.
Lemma stored_empty t d v n : size d = 0 -> decode t d [] = v -> stored t d (repeatN [] n) (repeatN v n).
Proof.
  intros Hz Hd. unfold stored, repeatN. induction (N.to_nat n) as [ | m IH ]; cbn [repeat]; constructor; auto.
  split; [ rewrite Hz; apply lenN_nil | split; [ constructor | auto ] ].
Qed.
Definition C29_empty : cursor := from_start (npy_text "'|V0'" "(18446744073709551615,)" []).
Lemma C29_empty_ideal m : ideal m (repeatN (Some (XBytes [])) 18446744073709551615) [CNext; CSeek 9223372036854775808] 0 = [OItem (XBytes []); ODone].
Proof.
  set (n := 18446744073709551615). assert (Hn : 9223372036854775808 <= n) by (unfold n; lia). clearbody n. cbn [ideal ideal_call]. rewrite lenN_repeatN.
  replace (0 <? n) with true by lia. unfold item_obs. change (N.to_nat 0) with 0%nat. unfold repeatN.
  replace (N.to_nat n) with (S (N.to_nat (n - 1))) by lia. cbn [repeat nth_error]. cbn [app].
  replace (9223372036854775808 <=? n) with true by lia. reflexivity.
Qed.
Theorem C29_huge_refuted : exists c t src f src' r items calls,
  bytes_ok (cur_data src) /\ npy_new c src = (Ok f, src') /\ npy_data c t f = DOk r /\ complete_file t f items
  /\ Forall (fun x => x <> None) items /\ cur_pos (nf_src f) + h_n_records (nf_header f) * size (h_dtype (nf_header f)) < 2 ^ 63
  /\ actual c calls r <> ideal (c_usize_max c) items calls 0.
Proof.
  exists le64, RVecU8, C29_empty. eexists _, _, _. exists (repeatN (Some (XBytes [])) 18446744073709551615), [CNext; CSeek 9223372036854775808].
  split; [ apply bytes_ok_dec; vm_compute; reflexivity | ]. split; [ vm_compute; reflexivity | ]. split; [ vm_compute; reflexivity | ].
  split; [ | split; [ | split ] ].
  - exists (repeatN [] 18446744073709551615), []. rewrite concat_empty. split; [ vm_compute; reflexivity | ]. split; [ now apply stored_empty | ].
    rewrite lenN_repeatN. reflexivity.
  - apply Forall_repeatN. discriminate.
  - vm_compute. reflexivity.
  - rewrite C29_empty_ideal. vm_compute. discriminate.
Qed.
Print Assumptions C29_huge_refuted.

(** A file that opens, whose dtype the type accepts, and whose items nobody can read: its byte strings are longer than [isize::MAX]. *)
Theorem C29_huge_string_refuted : exists c t src f src' r,
  bytes_ok (cur_data src) /\ npy_new c src = (Ok f, src') /\ npy_data c t f = DOk r
  /\ fst (npy_into_vec c t f) = Panic /\ actual c [CNext] r = [OPanicked].
Proof.
  exists le64, RVecU8, {| cur_data := npy_text "'|S9223372036854775808'" "(1,)" []; cur_pos := 0 |}. do 3 eexists.
  split; [ apply bytes_ok_dec; vm_compute; reflexivity | ]. split; [ vm_compute; reflexivity | ]. split; [ vm_compute; reflexivity | ].
  split; vm_compute; reflexivity.
Qed.
Print Assumptions C29_huge_string_refuted.

(** * C30: after a decoding error *)
(** [items] now has [None] where decoding fails: for these types such an item gives an error and nothing else changes. *)
Theorem C30_histories_partial : forall c t src f src' r items,
  bytes_ok (cur_data src) -> npy_new c src = (Ok f, src') -> npy_data c t f = DOk r ->
  complete_file t f items -> addressable c f -> whole_item t (h_dtype (nf_header f)) ->
  forall calls, actual c calls r = ideal (c_usize_max c) items calls 0.
Proof.
  exact (fun c t src f src' r items Hb Hf Hr Hc Ha Hw => complete_histories c t src f src' r items Hb Hf Hr Hc Ha
    (or_intror (fun rd Ho => whole_consumes c t (h_dtype (nf_header f)) rd (proj1 Ho) (proj1 Ha) (proj1 (proj2 (proj2 Ho))) Hw))).
Qed.
Print Assumptions C30_histories_partial.
(** Whatever the type, the observations are right up to and including the first error. *)
Theorem C30_until_error : forall c t src f src' r items,
  bytes_ok (cur_data src) -> npy_new c src = (Ok f, src') -> npy_data c t f = DOk r -> complete_file t f items -> addressable c f ->
  forall calls, agree_until_error (actual c calls r) (ideal (c_usize_max c) items calls 0).
Proof. exact until_error. Qed.
Print Assumptions C30_until_error.

Definition C30_src : cursor := from_start (npy_text "'|b1'" "(4,)" [1; 2; 0; 1]).
Example C30_case : exists f src' r, npy_new le64 C30_src = (Ok f, src') /\ npy_data le64 RBool f = DOk r
  /\ complete_file RBool f [Some (XBool true); None; Some (XBool false); Some (XBool true)] /\ addressable le64 f /\ whole_item RBool (h_dtype (nf_header f))
  /\ actual le64 [CNext; CNext; CNext; CReadAt 1; CReadAt 0] r = [OItem (XBool true); OError; OItem (XBool false); OError; OItem (XBool true)].
Proof.
  eexists _, _, _. split; [ vm_compute; reflexivity | ]. split; [ vm_compute; reflexivity | ].
  split; [ | split; [ | split; [ now right | vm_compute; reflexivity ] ] ].
  - exists [[1]; [2]; [0]; [1]], []. split; [ vm_compute; reflexivity | ]. split; [ | vm_compute; reflexivity ].
    repeat (constructor; [ split; [ reflexivity | split; [ apply bytes_ok_dec; reflexivity | vm_compute; reflexivity ] ] | ]). constructor.
  - split; [ vm_compute; (exact I || discriminate) | split; [ vm_compute; reflexivity | right; vm_compute; reflexivity ] ].
Qed.

(** For the others it is false: a wrong item is returned after the error.  Here [ '<U2' ] with a first unit that is not a character. *)
Definition C30_bad : bytes := npy_text "'<U2'" "(2,)" ([255;255;255;255; 120;0;0;0] ++ [121;0;0;0; 122;0;0;0])%list.
Theorem C30_refuted : exists c t src f src' r items calls,
  bytes_ok (cur_data src) /\ npy_new c src = (Ok f, src') /\ npy_data c t f = DOk r /\ complete_file t f items /\ addressable c f
  /\ actual c calls r <> ideal (c_usize_max c) items calls 0
  /\ (exists j v, nth_error (actual c calls r) j = Some (OItem v) /\ forall i, nth_error items i <> Some (Some v)).
Proof.
  exists le64, RString, (from_start C30_bad). eexists _, _, _. exists [None; Some (XStr (lit "yz"))], [CNext; CNext].
  split; [ apply bytes_ok_dec; vm_compute; reflexivity | ]. split; [ vm_compute; reflexivity | ]. split; [ vm_compute; reflexivity | ].
  split; [ | split; [ | split ] ].
  - exists [[255;255;255;255; 120;0;0;0]; [121;0;0;0; 122;0;0;0]], []. split; [ vm_compute; reflexivity | ]. split; [ | vm_compute; reflexivity ].
    repeat (constructor; [ split; [ reflexivity | split; [ apply bytes_ok_dec; reflexivity | vm_compute; reflexivity ] ] | ]). constructor.
  - split; [ vm_compute; (exact I || discriminate) | split; [ vm_compute; reflexivity | right; vm_compute; reflexivity ] ].
  - vm_compute. discriminate.
  - exists 1%nat. eexists. split; [ vm_compute; reflexivity | ]. intros [ | [ | [ | i ] ] ]; discriminate.
Qed.
Print Assumptions C30_refuted.

(** * C15: truncated files *)
(** A complete file [file] with header [h] is cut somewhere.  Then the rest either does not open, or has the same header and: reading
    one item after the other never gives a wrong item; any history is right until its first error; reading the whole array fails. *)
Theorem C15_truncated_partial : forall c t file h data blocks items p q, strings_fit (c_usize_max c) (h_dtype h) ->
  bytes_ok file -> run (read_and_interpret c) file = (Ok h, data) -> data = List.concat blocks ->
  stored t (h_dtype h) blocks (map Some items) -> lenN items = h_n_records h -> file = p ++ q -> q <> [] ->
  match npy_new c (from_start p) with
  | (Err _, _) => True
  | (Panic, _) => False
  | (Ok f, _) => nf_header f = h /\ forall r, npy_data c t f = DOk r ->
      (forall k j v, nth_error (actual c (repeat CNext k) r) j = Some (OItem v) -> nth_error items j = Some v)
      /\ (addressable c f -> forall calls, agree_until_error (actual c calls r) (ideal (c_usize_max c) (map Some items) calls 0))
      /\ (0 < size (h_dtype h) -> exists e, fst (npy_into_vec c t f) = Err e)
  end.
Proof. exact truncated. Qed.
Print Assumptions C15_truncated_partial.

Definition C15_file : bytes := npy_text "'<u2'" "(3,)" [1;0; 2;0; 3;0].
Definition C15_cut : bytes := npy_text "'<u2'" "(3,)" [1;0; 2;0; 3].
Definition C15_items : list val := [XInt 1; XInt 2; XInt 3].
(** After an error at the end of the file the stream is not where the index says: [read_at(0)] then gives an item that is not in the file. *)
Theorem C15_after_error_refuted : exists c t file h data blocks items p q,
  bytes_ok file /\ run (read_and_interpret c) file = (Ok h, data) /\ data = List.concat blocks
  /\ stored t (h_dtype h) blocks (map Some items) /\ lenN items = h_n_records h /\ file = p ++ q /\ q <> []
  /\ exists f src' r calls j i v, npy_new c (from_start p) = (Ok f, src') /\ npy_data c t f = DOk r /\ addressable c f
     /\ nth_error calls j = Some (CReadAt i) /\ nth_error (actual c calls r) j = Some (OItem v) /\ nth_error items (N.to_nat i) <> Some v.
Proof.
  exists le64, (RInt false W2), C15_file. eexists _, _. exists [[1;0]; [2;0]; [3;0]], C15_items, C15_cut, [0].
  split; [ apply bytes_ok_dec; vm_compute; reflexivity | ]. split; [ vm_compute; reflexivity | ]. split; [ vm_compute; reflexivity | ].
  split. { repeat (constructor; [ split; [ reflexivity | split; [ apply bytes_ok_dec; reflexivity | vm_compute; reflexivity ] ] | ]). constructor. }
  split; [ reflexivity | ]. split; [ reflexivity | ]. split; [ discriminate | ].
  eexists _, _, _. exists [CReadAt 2; CReadAt 0], 1%nat, 0, (XInt 266). split; [ vm_compute; reflexivity | ]. split; [ vm_compute; reflexivity | ].
  split; [ split; [ vm_compute; (exact I || discriminate) | split; [ vm_compute; reflexivity | right; vm_compute; reflexivity ] ] | ].
  split; [ reflexivity | ]. split; [ vm_compute; reflexivity | vm_compute; discriminate ].
Qed.
Print Assumptions C15_after_error_refuted.
Example C15_case : exists f src' r, npy_new le64 (from_start C15_cut) = (Ok f, src') /\ npy_data le64 (RInt false W2) f = DOk r
  /\ actual le64 (repeat CNext 4) r = [OItem (XInt 1); OItem (XInt 2); OError; OEnd] /\ fst (npy_into_vec le64 (RInt false W2) f) = Err EUnexpectedEof.
Proof.
  eexists _, _, _. split; [ vm_compute; reflexivity | ]. split; [ vm_compute; reflexivity | ]. split; [ vm_compute; reflexivity | ].
  vm_compute; reflexivity.
Qed.

(** * C25: Python objects *)
Theorem C25_refused : forall c t src f src', npy_new c src = (Ok f, src') -> has_object (h_dtype (nf_header f)) ->
  npy_data c t f = DErr RequiresPickle /\ npy_try_data c t f = inr f /\ (exists e, npy_into_vec c t f = (Err e, nf_src f)).
Proof. exact object_refused. Qed.
Print Assumptions C25_refused.
Theorem C25_only_those : forall c t src f src', npy_new c src = (Ok f, src') -> ~ has_object (h_dtype (nf_header f)) -> npy_data c t f <> DErr RequiresPickle.
Proof. exact object_only. Qed.
Print Assumptions C25_only_those.
(** The header of such a file is readable: objects need no size, so nothing but an overflowing shape can be in the way. *)
Theorem C25_header_readable : forall c d shape o, has_object d -> no_overflow shape -> exists h, from_parts c d shape o = Ok h /\ h_dtype h = d /\ h_shape h = shape.
Proof. exact object_header. Qed.
Print Assumptions C25_header_readable.
Definition C25_file : bytes := npy_text "[('a', '<i4'), ('b', [('c', '|O')], (2, 3))]" "(7,)" [128; 4].
Example C25_case : exists f src', npy_new le64 (from_start C25_file) = (Ok f, src') /\ has_object (h_dtype (nf_header f)) /\ h_shape (nf_header f) = [7]
  /\ npy_data le64 (RInt true W4) f = DErr RequiresPickle.
Proof.
  eexists _, _. split; [ vm_compute; reflexivity | ]. split; [ | split; vm_compute; reflexivity ].
  cbn [nf_header h_dtype]. eapply obj_field; [ right; left; reflexivity | ]. apply obj_array, obj_array. eapply obj_field; [ left; reflexivity | ]. now constructor.
Qed.

(** * C36: [try_data] *)
(** [try_data] fails exactly when [data] fails, and then gives back the file it was given. *)
Theorem C36_try_data : forall c t f,
  (forall r, npy_try_data c t f = inl r <-> npy_data c t f = DOk r)
  /\ (forall f', npy_try_data c t f = inr f' <-> f' = f /\ exists e, npy_data c t f = DErr e).
Proof. exact try_data_spec. Qed.
Print Assumptions C36_try_data.
(** So a second attempt with another type is a first attempt: same result, same items for every later history of calls. *)
Theorem C36_second_attempt : forall c t t' f f', npy_try_data c t f = inr f' ->
  npy_try_data c t' f' = npy_try_data c t' f /\ npy_data c t' f' = npy_data c t' f /\ npy_into_vec c t' f' = npy_into_vec c t' f
  /\ cur_pos (nf_src f') = cur_pos (nf_src f).
Proof. exact second_attempt. Qed.
Print Assumptions C36_second_attempt.
Example C36_case : exists f src' r, npy_new le64 C29_src = (Ok f, src') /\ npy_try_data le64 (RInt true W4) f = inr f /\ npy_try_data le64 (RInt true W2) f = inl r
  /\ actual le64 [CNext] r = [OItem (XInt 1)].
Proof.
  eexists _, _, _. split; [ vm_compute; reflexivity | ]. split; [ vm_compute; reflexivity | ]. split; [ vm_compute; reflexivity | ].
  vm_compute; reflexivity.
Qed.

(** * C37, C38: the in-memory reader *)
(** Whenever the streaming reader reads a whole buffer, with nothing left over, the in-memory reader gives the same items. *)
Theorem C37_agree : forall c t bs f src' vs cur, strings_fit (c_usize_max c) (h_dtype (nf_header f)) -> wf_cfg c -> bytes_ok bs -> lenN bs <= c_usize_max c ->
  npy_new c (from_start bs) = (Ok f, src') -> npy_into_vec c t f = (Ok vs, cur) -> cur_rest cur = [] -> lenN vs <= c_usize_max c ->
  exists nd, nd_from_bytes c t bs = Ok nd /\ nd_len c nd = lenN vs /\ nd_to_vec c nd = Ok vs
    /\ (forall i, nd_get c i nd = Ok (nth_error vs (N.to_nat i)))
    /\ (forall k, N.of_nat k <= c_usize_max c -> fst (iterate c k (nd_into_iter nd)) = map (fun i => Ok (nth_error vs i)) (seq 0 k)).
Proof. exact legacy_agrees. Qed.
Print Assumptions C37_agree.
Definition C37_file : bytes := npy_text "'|S2'" "(3,)" [97;98; 99;0; 0;0].
Example C37_case : exists f src' cur nd, npy_new le32 (from_start C37_file) = (Ok f, src')
  /\ npy_into_vec le32 RVecU8 f = (Ok [XBytes (lit "ab"); XBytes (lit "c"); XBytes []], cur) /\ cur_rest cur = []
  /\ nd_from_bytes le32 RVecU8 C37_file = Ok nd /\ nd_get le32 1 nd = Ok (Some (XBytes (lit "c"))) /\ nd_get le32 3 nd = Ok None.
Proof.
  eexists _, _, _, _. split; [ vm_compute; reflexivity | ]. split; [ vm_compute; reflexivity | ]. split; [ vm_compute; reflexivity | ].
  split; [ vm_compute; reflexivity | ]. split; [ vm_compute; reflexivity | ]. vm_compute; reflexivity.
Qed.
(** Without the bound on the number of items: on a 32-bit machine the number of zero-sized items is cut off. *)
Definition C37_empty : bytes := npy_text "'|V0'" "(4294967297,)" [].
Theorem C37_many_refuted : exists c t bs f src' items nd, wf_cfg c /\ bytes_ok bs /\ lenN bs <= c_usize_max c
  /\ npy_new c (from_start bs) = (Ok f, src') /\ npy_data c t f <> DErr RequiresPickle /\ complete_file t f (map Some items)
  /\ nd_from_bytes c t bs = Ok nd /\ nd_len c nd <> lenN items /\ nd_get c 1 nd = Ok None /\ 1 < lenN items.
Proof.
  exists le32, RVecU8, C37_empty. eexists _, _. exists (repeatN (XBytes []) 4294967297). eexists.
  split; [ now right | ]. split; [ apply bytes_ok_dec; vm_compute; reflexivity | ]. split; [ vm_compute; discriminate | ].
  split; [ vm_compute; reflexivity | ]. split; [ vm_compute; discriminate | ]. split.
  - exists (repeatN [] 4294967297), []. rewrite concat_empty. split; [ vm_compute; reflexivity | ]. split; [ | rewrite lenN_map, lenN_repeatN; reflexivity ].
    rewrite map_repeatN. now apply stored_empty.
  - split; [ vm_compute; reflexivity | ]. split; [ rewrite lenN_repeatN; vm_compute; discriminate | ]. split; [ vm_compute; reflexivity | ].
    rewrite lenN_repeatN. reflexivity.
Qed.
Print Assumptions C37_many_refuted.

(** Every buffer whose data has the right length: the items, one by one, all at once, and in sequence; an item that cannot be decoded
    is a panic. *)
Theorem C37_items : forall c t bs f src' r items, strings_fit (c_usize_max c) (h_dtype (nf_header f)) -> wf_cfg c -> bytes_ok bs -> lenN bs <= c_usize_max c ->
  npy_new c (from_start bs) = (Ok f, src') -> npy_data c t f = DOk r -> complete_file t f items ->
  lenN (cur_rest (nf_src f)) = lenN items * size (h_dtype (nf_header f)) -> lenN items <= c_usize_max c ->
  exists nd, nd_from_bytes c t bs = Ok nd /\ nd_len c nd = lenN items
    /\ nd_to_vec c nd = match all_some items with Some vs => Ok vs | None => Panic end
    /\ (forall i, nd_get c i nd = seen_item (nth_error items (N.to_nat i)))
    /\ (forall k, N.of_nat k <= c_usize_max c -> fst (iterate c k (nd_into_iter nd)) = map (fun i => seen_item (nth_error items i)) (seq 0 k)).
Proof. exact legacy_items. Qed.
Print Assumptions C37_items.
(** Opening a buffer: exactly the right amount of data is accepted, any other is a panic. *)
Theorem C37_open : forall c t bs f src' r, bytes_ok bs -> npy_new c (from_start bs) = (Ok f, src') -> npy_data c t f = DOk r ->
  let total := size (h_dtype (nf_header f)) * h_n_records (nf_header f) in
  total < 2 ^ 64 \/ c_ovf_panics c = true ->
  (lenN (cur_rest (nf_src f)) = total -> total < 2 ^ 64 -> exists nd, nd_from_bytes c t bs = Ok nd)
  /\ (lenN (cur_rest (nf_src f)) <> total \/ 2 ^ 64 <= total -> nd_from_bytes c t bs = Panic).
Proof. exact legacy_open. Qed.
Print Assumptions C37_open.
Theorem C37_refuses : forall c t bs,
  (forall e src', npy_new c (from_start bs) = (Err e, src') -> nd_from_bytes c t bs = Err e)
  /\ (forall f src' e, npy_new c (from_start bs) = (Ok f, src') -> npy_data c t f = DErr e -> exists e', nd_from_bytes c t bs = Err e').
Proof. exact legacy_refuses. Qed.
Print Assumptions C37_refuses.
Definition C37_bools : bytes := npy_text "'|b1'" "(3,)" [1; 2; 0].
Example C37_items_case : exists f src' r nd, npy_new le64 (from_start C37_bools) = (Ok f, src') /\ npy_data le64 RBool f = DOk r
  /\ complete_file RBool f [Some (XBool true); None; Some (XBool false)] /\ lenN (cur_rest (nf_src f)) = 3
  /\ nd_from_bytes le64 RBool C37_bools = Ok nd /\ nd_get le64 1 nd = Panic /\ nd_get le64 2 nd = Ok (Some (XBool false)) /\ nd_to_vec le64 nd = Panic
  /\ nd_from_bytes le64 RBool (C37_bools ++ [0]) = Panic /\ exists e, nd_from_bytes le64 RString C37_bools = Err e.
Proof.
  eexists _, _, _, _. split; [ vm_compute; reflexivity | ]. split; [ vm_compute; reflexivity | ]. split.
  { exists [[1]; [2]; [0]], []. split; [ vm_compute; reflexivity | ]. split; [ | vm_compute; reflexivity ].
    repeat constructor. }
  split; [ vm_compute; reflexivity | ]. split; [ vm_compute; reflexivity | ]. split; [ vm_compute; reflexivity | ]. split; [ vm_compute; reflexivity | ].
  split; [ vm_compute; reflexivity | ]. split; [ vm_compute; reflexivity | ]. eexists. vm_compute. reflexivity.
Qed.
(** Where the product of the item size and the item count wraps, a buffer without any data passes for 2^61 items. *)
Definition C37_huge : bytes := npy_text "'<u8'" "(2305843009213693952,)" [].
Theorem C37_length_refuted : exists c t bs f src' r nd, wf_cfg c /\ bytes_ok bs /\ npy_new c (from_start bs) = (Ok f, src') /\ npy_data c t f = DOk r
  /\ cur_rest (nf_src f) = [] /\ 0 < size (h_dtype (nf_header f)) * h_n_records (nf_header f)
  /\ nd_from_bytes c t bs = Ok nd /\ nd_len c nd = 2 ^ 61 /\ nd_get c 0 nd = Panic.
Proof.
  exists be64, (RInt false W8), C37_huge. eexists _, _, _, _. split; [ now left | ]. split; [ apply bytes_ok_dec; vm_compute; reflexivity | ].
  split; [ vm_compute; reflexivity | ]. split; [ vm_compute; reflexivity | ]. split; [ vm_compute; reflexivity | ]. split; [ vm_compute; reflexivity | ].
  split; [ vm_compute; reflexivity | ]. split; vm_compute; reflexivity.
Qed.
Print Assumptions C37_length_refuted.

(** C38: after [k] calls of [next], [k] at most the number of items, the size hint is the number of items left. *)
Theorem C38_hint_partial : forall c t bs f src' vs cur, strings_fit (c_usize_max c) (h_dtype (nf_header f)) -> wf_cfg c -> bytes_ok bs -> lenN bs <= c_usize_max c ->
  npy_new c (from_start bs) = (Ok f, src') -> npy_into_vec c t f = (Ok vs, cur) -> cur_rest cur = [] -> lenN vs < c_usize_max c ->
  exists nd, nd_from_bytes c t bs = Ok nd
    /\ forall k, N.of_nat k <= lenN vs -> it_size_hint c (snd (iterate c k (nd_into_iter nd))) = Ok (lenN vs - N.of_nat k).
Proof. exact legacy_hint. Qed.
Print Assumptions C38_hint_partial.
(** One call later it is wrong for every file: a panic, or the largest [usize]. *)
Theorem C38_after_exhaustion : forall c t bs f src' vs cur, strings_fit (c_usize_max c) (h_dtype (nf_header f)) -> wf_cfg c -> bytes_ok bs -> lenN bs <= c_usize_max c ->
  npy_new c (from_start bs) = (Ok f, src') -> npy_into_vec c t f = (Ok vs, cur) -> cur_rest cur = [] -> lenN vs < c_usize_max c ->
  exists nd, nd_from_bytes c t bs = Ok nd
    /\ it_size_hint c (snd (iterate c (S (List.length vs)) (nd_into_iter nd))) = (if c_ovf_panics c then Panic else Ok (c_usize_max c)).
Proof. exact legacy_hint_exhausted. Qed.
Print Assumptions C38_after_exhaustion.
Example C38_case : exists nd, nd_from_bytes le64 RVecU8 C37_file = Ok nd
  /\ map (fun k => it_size_hint le64 (snd (iterate le64 k (nd_into_iter nd)))) [0%nat; 1%nat; 3%nat; 4%nat] = [Ok 3; Ok 2; Ok 0; Panic].
Proof. eexists. split; [ vm_compute; reflexivity | ]. vm_compute; reflexivity. Qed.
Theorem C38_refuted : exists c t bs nd vs k n, nd_from_bytes c t bs = Ok nd /\ nd_to_vec c nd = Ok vs
  /\ it_size_hint c (snd (iterate c k (nd_into_iter nd))) = Ok n /\ n <> lenN vs - N.of_nat k.
Proof.
  exists be64, RVecU8, C37_file. eexists _, _. exists 4%nat. eexists. split; [ vm_compute; reflexivity | ]. split; [ vm_compute; reflexivity | ].
  split; [ vm_compute; reflexivity | ]. vm_compute. discriminate.
Qed.
Print Assumptions C38_refuted.
