(** Proofs for C54: a header from one place, the data from another. *)
From Verif Require Import M_Base M_Text M_TypeStr M_IO M_Header M_Read M_Serialize M_NpyReader S_TypeStr S_DType S_Shape S_Elem S_Reader
  P_Base P_IO P_Shape P_Elem P_Sizes P_Reader P_Array.
Open Scope N_scope.

Lemma header_then_data c src : npy_new c src =
  match npy_header_from_reader c src with
  | (Ok h, src') => (Ok (npy_with_header h src'), src')
  | (Err e, src') => (Err e, src')
  | (Panic, src') => (Panic, src')
  end.
Proof. reflexivity. Qed.

Section Elsewhere.
Variables (c : cfg) (t : rty) (src : cursor) (h : nheader) (src' : cursor).
Hypothesis Hb : bytes_ok (cur_data src).
Hypothesis Hh : npy_header_from_reader c src = (Ok h, src').
Lemma new_here : npy_new c src = (Ok (npy_with_header h src'), src').
Proof. rewrite header_then_data, Hh. reflexivity. Qed.
Lemma data_elsewhere src2 : npy_data c t (npy_with_header h src2) =
  match npy_data c t (npy_with_header h src') with
  | DOk r => DOk {| nr_header := nr_header r; nr_type := nr_type r; nr_src := src2; nr_index := nr_index r |}
  | DErr e => DErr e
  end.
Proof. unfold npy_data. cbn [npy_with_header nf_header nf_src]. destruct (h_pickled h); [ reflexivity | ]. destruct (reader c t (h_dtype h)); reflexivity. Qed.
Lemma opened_elsewhere src2 r : npy_data c t (npy_with_header h src2) = DOk r ->
  exists rd, (wf_dtype (h_dtype h) /\ h_n_records h < 2 ^ 64 /\ reader c t (h_dtype h) = DOk rd /\ h_item_size h = Some (size (h_dtype h)))
  /\ r = {| nr_header := h; nr_type := rd; nr_src := src2; nr_index := 0 |}.
Proof.
  rewrite data_elsewhere. destruct (npy_data c t (npy_with_header h src')) as [ r0 | e ] eqn:E; [ | discriminate ].
  destruct (data_opened _ _ _ _ _ _ Hb new_here E) as (rd & Ho & ->). intros [= <-]. exists rd. split; [ exact Ho | reflexivity ].
Qed.
Lemma opens_elsewhere src2 r : strings_fit (c_usize_max c) (h_dtype h) -> npy_data c t (npy_with_header h src2) = DOk r ->
  exists rd, opens c t (npy_with_header h src2) rd /\ r = {| nr_header := h; nr_type := rd; nr_src := src2; nr_index := 0 |}.
Proof. intros Hfit Hr. destruct (opened_elsewhere src2 r Hr) as (rd & (H1 & H2 & H3 & H4) & ->). exists rd. repeat split; auto. Qed.
Lemma data_accepts src2 : (exists r, npy_data c t (npy_with_header h src2) = DOk r) <-> ~ has_object (h_dtype h) /\ accepts (c_usize_max c) Reading t (h_dtype h).
Proof.
  pose proof (opened _ _ _ _ Hb new_here) as (_ & _ & Hk). cbn [npy_with_header nf_header] in Hk. rewrite <- pickled_exact, <- (reader_accepts c t).
  unfold npy_data. cbn [npy_with_header nf_header nf_src]. rewrite Hk. destruct (uses_pickled_array (h_dtype h)).
  - split; [ intros (r & H); discriminate | intros (H & _); congruence ].
  - destruct (reader c t (h_dtype h)); cbn [dbind]; split.
    + intros _. split; [ discriminate | eauto ].
    + eauto.
    + intros (r & H); discriminate.
    + intros (_ & r & H); discriminate.
Qed.

Lemma elsewhere_exact src2 items : strings_fit (c_usize_max c) (h_dtype h) -> bytes_ok (cur_data src2) ->
  fst (npy_into_vec c t (npy_with_header h src2)) = Ok items <->
  ~ has_object (h_dtype h) /\ accepts (c_usize_max c) Reading t (h_dtype h) /\ complete_file t (npy_with_header h src2) (map Some items).
Proof.
  intros Hfit Hb2. set (f := npy_with_header h src2). split.
  - intros H. destruct (npy_data c t f) as [ r | e ] eqn:Hr; [ | unfold npy_into_vec in H; rewrite Hr in H; discriminate ].
    destruct (proj1 (data_accepts src2) (ex_intro _ r Hr)) as (H1 & H2). split; [ auto | split; [ auto | ] ].
    rewrite (into_vec_run c t f r Hr) in H. destruct (opened_elsewhere src2 r Hr) as (rd & (Hw & Hn & Hrd & Hsz) & ->). cbn [nr_type] in H.
    unfold run_cursor in H. destruct (run _ (cur_rest (nf_src f))) as (x, rest) eqn:E. cbn [fst] in H. subst x.
    destruct (replicate_blocks c t _ rd Hw Hrd _ _ _ _ (cur_rest_ok src2 Hb2) E) as (blocks & E1 & E2 & E3). exists blocks, rest. split; [ auto | split; [ auto | ] ].
    rewrite lenN_map. unfold lenN. lia.
  - intros (H1 & H2 & blocks & more & Hd & Hs & Hn). destruct (proj2 (data_accepts src2) (conj H1 H2)) as (r & Hr).
    rewrite (into_vec_run c t f r Hr). destruct (opens_elsewhere src2 r Hfit Hr) as (rd & Ho & ->).
    cbn [nr_type]. unfold run_cursor. rewrite lenN_map in Hn.
    pose proof (replicate_read c t f rd blocks items (cur_rest (nf_src f)) [] more Ho Hs ltac:(now rewrite app_nil_r)
      (N.to_nat (h_n_records (nf_header f))) 0 ltac:(lia)) as H. cbn zeta in H. rewrite N.mul_0_l, dropN_0 in H.
    pose proof (stored_len _ _ _ _ Hs) as (Hl & _). rewrite lenN_map in Hl.
    destruct (run _ (cur_rest (nf_src f))) as ([ vs | e | ], rest); cbn [fst].
    + destruct H as (-> & _). cbn [N.to_nat skipn]. rewrite firstn_all2; auto. unfold lenN in Hn. lia.
    + rewrite Hd, lenN_app, Hl in H. rewrite N2Nat.id, Hn in H. lia.
    + destruct H.
Qed.

Lemma elsewhere_histories src2 r items : npy_data c t (npy_with_header h src2) = DOk r -> complete_file t (npy_with_header h src2) (map Some items) ->
  addressable c (npy_with_header h src2) -> forall calls, actual c calls r = ideal (c_usize_max c) (map Some items) calls 0.
Proof.
  intros Hr (blocks & more & Hd & Hs & Hn) Ha ks. destruct (opens_elsewhere src2 r (proj1 Ha) Hr) as (rd & Ho & ->).
  change {| nr_header := h; nr_type := rd; nr_src := src2; nr_index := 0 |}
    with {| nr_header := nf_header (npy_with_header h src2); nr_type := rd; nr_src := nf_src (npy_with_header h src2); nr_index := 0 |}. rewrite at_start.
  pose proof (stored_len _ _ _ _ Hs) as (Hl & _).
  apply (histories_gen c t (npy_with_header h src2) rd blocks (map Some items) [] more Ho Ha Hs); auto; try lia.
  - now rewrite app_nil_r.
  - left. rewrite Forall_map. apply Forall_forall. discriminate.
  - rewrite Hd, lenN_app. lia.
Qed.
End Elsewhere.
