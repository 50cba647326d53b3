(** Truncated files, object arrays, the in-memory reader. *)
From Verif Require Import M_Base M_Text M_TypeStr M_IO M_Header M_Read M_Serialize M_NpyReader S_TypeStr S_DType S_Shape S_Header S_Text S_Elem S_Strings S_Reader
  P_Base P_Text P_TypeStr P_IO P_Shape P_Header P_Number P_Elem P_ReadOne P_WriteOne P_Codec P_Sizes P_Strings P_Parse S_Dict P_Interp P_ElemT P_Reader.
Open Scope N_scope.

(** * Whole arrays, exactly *)
Lemma replicate_blocks c t d rd : wf_dtype d -> reader c t d = DOk rd -> forall k input vs rest, bytes_ok input ->
  run (rreplicate k (read_one c rd)) input = (Ok vs, rest) ->
  exists blocks, input = List.concat blocks ++ rest /\ stored t d blocks (map Some vs) /\ List.length vs = k.
Proof.
  intros Hw Hr. induction k as [ | k IH ]; intros input vs rest Hb H.
  - cbn [rreplicate run] in H. apply pair_inj in H as (H & <-). apply Ok_inj in H as <-. exists []. repeat split. constructor.
  - rewrite run_rreplicate_S in H. pose proof (read_one_total c t d rd Hw Hr input Hb) as H1.
    destruct (run (read_one c rd) input) as ([ v | e | ], r1); try discriminate H. cbn [then_] in H. destruct H1 as (bs & -> & Hl & Hd).
    apply Forall_app in Hb as (Hb1 & Hb2). specialize (IH r1).
    destruct (run (rreplicate k (read_one c rd)) r1) as ([ vs' | e | ], r2); try discriminate H. cbn [then_] in H.
    apply pair_inj in H as (H & <-). apply Ok_inj in H as <-. destruct (IH vs' r2 Hb2 eq_refl) as (blocks & -> & Hs & Hk).
    exists (bs :: blocks). cbn [List.concat map List.length]. rewrite <- app_assoc. repeat split; auto. constructor; auto.
Qed.

Lemma cur_rest_ok src : bytes_ok (cur_data src) -> bytes_ok (cur_rest src).
Proof. apply Forall_dropN. Qed.
Lemma opened_data c src f src' : npy_new c src = (Ok f, src') -> cur_data (nf_src f) = cur_data src.
Proof.
  intros H. apply npy_new_inv in H as (-> & H & _). unfold run_cursor in H. destruct (run _ _) as (r, rest). apply pair_inj in H as (_ & <-). reflexivity.
Qed.

Lemma into_vec_exact c t src f src' r items : strings_fit (c_usize_max c) (h_dtype (nf_header f)) -> bytes_ok (cur_data src) -> npy_new c src = (Ok f, src') -> npy_data c t f = DOk r ->
  fst (npy_into_vec c t f) = Ok items <-> complete_file t f (map Some items).
Proof.
  intros Hfit Hb Hf Hr. split; [ | eapply into_vec_complete; eauto ].
  rewrite (into_vec_run c t f r Hr). destruct (data_opened _ _ _ _ _ _ Hb Hf Hr) as (rd & (Hw & Hn & Hrd & Hsz) & ->). cbn [nr_type].
  unfold run_cursor. destruct (run _ (cur_rest (nf_src f))) as (x, rest) eqn:E. cbn [fst]. intros ->.
  assert (Hb' : bytes_ok (cur_rest (nf_src f))) by (apply cur_rest_ok; now rewrite (opened_data _ _ _ _ Hf)).
  destruct (replicate_blocks c t _ rd Hw Hrd _ _ _ _ Hb' E) as (blocks & H1 & H2 & H3). exists blocks, rest. split; [ auto | split; [ auto | ] ].
  rewrite lenN_map. unfold lenN. lia.
Qed.

(** * Truncated files *)
Lemma truncated c t file h data blocks items p q :
  strings_fit (c_usize_max c) (h_dtype h) -> bytes_ok file -> run (read_and_interpret c) file = (Ok h, data) -> data = List.concat blocks ->
  stored t (h_dtype h) blocks (map Some items) -> lenN items = h_n_records h -> file = p ++ q -> q <> [] ->
  match npy_new c {| cur_data := p; cur_pos := 0 |} with
  | (Err _, _) => True
  | (Panic, _) => False
  | (Ok f, _) => nf_header f = h /\ forall r, npy_data c t f = DOk r ->
      (forall k j v, nth_error (actual c (repeat CNext k) r) j = Some (OItem v) -> nth_error items j = Some v)
      /\ (addressable c f -> forall ks, agree_until_error (actual c ks r) (ideal (c_usize_max c) (map Some items) ks 0))
      /\ (0 < size (h_dtype h) -> exists e, fst (npy_into_vec c t f) = Err e)
  end.
Proof.
  intros Hfit Hb Hh Hd Hs Hn -> Hq. pose proof (new_on_prefix c p q h data Hh) as H.
  destruct (npy_new c {| cur_data := p; cur_pos := 0 |}) as ([ f | e | ], src') eqn:Hf; auto. destruct H as (<- & Hd'). split; [ auto | ].
  intros r Hr. apply Forall_app in Hb as (Hb & _). pose proof (data_opens c t {| cur_data := p; cur_pos := 0 |} f src' r Hfit Hb Hf Hr) as (rd & Ho & ->).
  assert (Hav : cur_rest (nf_src f) ++ q = List.concat blocks) by congruence.
  split; [ | split ].
  - intros k j v Hj. change j with (N.to_nat 0 + j)%nat.
    apply (nexts_gen c t f rd blocks items q Ho Hs Hav Hn k {| nr_header := nf_header f; nr_type := rd; nr_src := nf_src f; nr_index := 0 |} 0) with (j := j); auto.
    + lia.
    + left. apply at_start.
  - intros Ha ks. rewrite at_start. apply (histories_gen c t f rd blocks (map Some items) q [] Ho Ha Hs).
    + now rewrite app_nil_r.
    + now rewrite lenN_map.
    + lia.
  - intros Hz. rewrite (into_vec_run c t f _ Hr). cbn [nr_type]. unfold run_cursor.
    pose proof (replicate_read c t f rd blocks items (cur_rest (nf_src f)) q [] Ho Hs ltac:(now rewrite app_nil_r)
      (N.to_nat (h_n_records (nf_header f))) 0 ltac:(lia)) as H. cbn zeta in H. rewrite N.mul_0_l, dropN_0 in H.
    destruct (run _ (cur_rest (nf_src f))) as ([ vs | e | ], rest); cbn [fst]; [ | eauto | destruct H ].
    exfalso. destruct H as (_ & _ & H). pose proof (stored_len _ _ _ _ Hs) as (Hl & _). rewrite <- Hav, lenN_app, lenN_map in Hl.
    assert (0 < lenN q) by (destruct q; [ congruence | rewrite lenN_cons; lia ]).
    specialize (H ltac:(nia)). rewrite N.add_0_l, N2Nat.id, <- Hn in H. lia.
Qed.

(** * Object arrays *)
Lemma dbind_err {A B} (m : dres A) (k : A -> dres B) e : dbind m k = DErr e -> m = DErr e \/ exists a, m = DOk a /\ k a = DErr e.
Proof. destruct m; cbn; eauto. intros [= ->]. auto. Qed.
Ltac no_pickle :=
  repeat match goal with
  | H : dbind _ _ = DErr _ |- _ => apply dbind_err in H as [ H | (? & ? & H) ]
  | H : (let '(_, _) := ?p in _) = DErr _ |- _ => destruct p
  | H : match ?x with _ => _ end = DErr _ |- _ => destruct x eqn:?; try discriminate H
  | H : (if ?x then _ else _) = DErr _ |- _ => destruct x eqn:?; try discriminate H
  end; try discriminate.
Lemma expect_scalar_pickle w0 d : expect_scalar_dtype w0 d <> DErr RequiresPickle.
Proof. destruct d; discriminate. Qed.
Lemma usize_pickle c t : size_field_as_usize c t <> DErr RequiresPickle.
Proof. unfold size_field_as_usize. destruct (usize_try_from c _); discriminate. Qed.
Lemma byte_vec_pickle w0 c d : check_byte_vec_dtype w0 c d <> DErr RequiresPickle.
Proof.
  unfold check_byte_vec_dtype. intros H. no_pickle; [ now apply expect_scalar_pickle in H | now apply usize_pickle in H ].
Qed.
Lemma utf8_pickle c d : utf8_try_from_dtype c d <> Some (DErr RequiresPickle).
Proof. unfold utf8_try_from_dtype. destruct (check_byte_vec_dtype _ c d) as [ ((n, b), t) | e ]; [ destruct b; discriminate | destruct e; discriminate ]. Qed.
Lemma utf32_pickle c d : utf32_try_from_dtype c d <> Some (DErr RequiresPickle).
Proof.
  unfold utf32_try_from_dtype. destruct (as_scalar d) as [ a | ]; [ | discriminate ]. destruct (ts_char a); try discriminate.
  pose proof (usize_pickle c a). destruct (size_field_as_usize c a); [ discriminate | congruence ].
Qed.
Lemma reader_pickle c t : forall d, reader c t d <> DErr RequiresPickle.
Proof.
  induction t as [ t Ha Hs | n t IH | fs IH ] using rty_rect'; intros d H.
  - destruct t; try (now destruct (Ha _ _ eq_refl)); try (now destruct (Hs _ eq_refl)); cbn [reader] in H.
    all: unfold prim_swap, complex_swap, check_array_byte_vec_dtype, check_fixed_bytes, check_unicode, check_unicode_arr, string_reader, array_string_reader in H.
    all: no_pickle; try (now apply expect_scalar_pickle in H); try (now apply usize_pickle in H); try (now apply byte_vec_pickle in H).
    all: try match goal with
      | E : utf8_try_from_dtype _ _ = Some ?x, H : ?x = DErr _ |- _ => rewrite H in E; now apply utf8_pickle in E
      | E : utf32_try_from_dtype _ _ = Some ?x, H : ?x = DErr _ |- _ => rewrite H in E; now apply utf32_pickle in E
      end.
  - cbn [reader] in H. apply dbind_err in H as [ H | (ty & _ & H) ].
    + unfold array_inner_dtype in H. destruct d; try discriminate. destruct (_ =? _); discriminate.
    + apply dbind_err in H as [ H | (? & _ & H) ]; [ now apply IH in H | discriminate ].
  - cbn [reader] in H. apply dbind_err in H as [ H | (ds & _ & H) ].
    + unfold extract_field_dtypes in H. destruct d; try discriminate. destruct (eqb_texts _ _); discriminate.
    + apply dbind_err in H as [ H | (? & _ & H) ]; [ | discriminate ]. revert ds H.
      induction IH as [ | (name, t) fs Hf Hfs IH ]; intros [ | d' ds ] H; try discriminate H.
      apply dbind_err in H as [ H | (r & _ & H) ]; [ now apply Hf in H | ].
      apply dbind_err in H as [ H | (rs & _ & H) ]; [ now apply IH in H | discriminate ].
Qed.

Lemma object_refused c t src f src' : npy_new c src = (Ok f, src') -> has_object (h_dtype (nf_header f)) ->
  npy_data c t f = DErr RequiresPickle /\ npy_try_data c t f = inr f /\ (exists e, npy_into_vec c t f = (Err e, nf_src f)).
Proof.
  intros Hf Ho. apply npy_new_inv in Hf as (_ & _ & d & shape & o & Hp). apply from_parts_ok in Hp as (Hd & _ & _ & _ & _ & Hk & _). subst d.
  apply pickled_exact in Ho. rewrite Ho in Hk. unfold npy_into_vec, npy_try_data, npy_data. rewrite Hk. eauto.
Qed.
Lemma object_only c t src f src' : npy_new c src = (Ok f, src') -> ~ has_object (h_dtype (nf_header f)) -> npy_data c t f <> DErr RequiresPickle.
Proof.
  intros Hf Ho. apply npy_new_inv in Hf as (_ & _ & d & shape & o & Hp). pose proof (from_parts_ok _ _ _ _ _ Hp) as (Hd & _). subst d.
  apply from_parts_item_size in Hp as (_ & Hk); auto. unfold npy_data. rewrite Hk. intros H. apply dbind_err in H as [ H | (r & _ & H) ]; [ | discriminate ].
  now apply reader_pickle in H.
Qed.

(** * The in-memory reader *)
Lemma mod_small_id a m : a <= m -> a mod (m + 1) = a.
Proof. intros H. apply N.mod_small. lia. Qed.

Lemma legacy c t bs f src' vs cur : strings_fit (c_usize_max c) (h_dtype (nf_header f)) -> wf_cfg c -> bytes_ok bs -> lenN bs <= c_usize_max c ->
  npy_new c {| cur_data := bs; cur_pos := 0 |} = (Ok f, src') -> npy_into_vec c t f = (Ok vs, cur) -> cur_rest cur = [] ->
  lenN vs <= c_usize_max c ->
  exists nd, nd_from_bytes c t bs = Ok nd /\ nd_len c nd = lenN vs /\ nd_to_vec c nd = Ok vs
    /\ (forall i, nd_get c i nd = Ok (nth_error vs (N.to_nat i))).
Proof.
  intros Hfit Hcfg Hb Hlen Hf Hv Hend Hvs. unfold npy_into_vec in Hv.
  destruct (npy_data c t f) as [ r | e ] eqn:Hr; [ | discriminate ].
  assert (Hv' : npy_into_vec c t f = (Ok vs, cur)) by (unfold npy_into_vec; rewrite Hr; exact Hv). clear Hv.
  rewrite (into_vec_run c t f r Hr) in Hv'. pose proof (data_opens c t {| cur_data := bs; cur_pos := 0 |} f _ r Hfit Hb Hf Hr) as (rd & Ho & ->).
  pose proof Ho as (Hw & Hn & Hrd & Hsz & _). cbn [nr_type] in Hv'.
  set (n := h_n_records (nf_header f)) in *. set (sz := size (h_dtype (nf_header f))) in *. set (D := cur_rest (nf_src f)) in *.
  assert (HbD : bytes_ok D) by (apply cur_rest_ok; now rewrite (opened_data _ _ _ _ Hf)).
  unfold run_cursor in Hv'. fold D in Hv'. destruct (run (rreplicate (N.to_nat n) (read_one c rd)) D) as (x, rest) eqn:E.
  apply pair_inj in Hv' as (-> & Hc). pose proof (replicate_blocks c t _ rd Hw Hrd _ _ _ _ HbD E) as (blocks & HD & Hs & Hk).
  assert (Hrest : rest = []).
  { rewrite <- Hc in Hend. unfold cur_rest in Hend. cbn [cur_data cur_pos] in Hend. rewrite N.add_comm, <- dropN_dropN in Hend.
    change (dropN (cur_pos (nf_src f)) (cur_data (nf_src f))) with D in Hend. rewrite HD, lenN_app, N.add_sub in Hend.
    rewrite dropN_app in Hend; auto. }
  subst rest. rewrite app_nil_r in HD. assert (Hnv : lenN vs = n) by (unfold lenN; lia).
  pose proof (stored_len _ _ _ _ Hs) as (Hl & _). rewrite <- HD, lenN_map, Hnv in Hl. fold sz in Hl.
  assert (HlD : lenN D <= lenN bs).
  { unfold D, cur_rest. rewrite (opened_data _ _ _ _ Hf). cbn [cur_data]. rewrite lenN_dropN. lia. }
  assert (Hmax : c_usize_max c < 2 ^ 64) by (destruct Hcfg as [ Hcfg | Hcfg ]; change (2 ^ 64) with 18446744073709551616 in *; change (2 ^ 32) with 4294967296 in *; lia).
  set (nd := {| nd_header := nf_header f; nd_type := rd; nd_slice := D |}).
  assert (Hnd : nd_len c nd = lenN vs).
  { unfold nd_len, nd. cbn [nd_header]. fold n. rewrite mod_small_id by lia. lia. }
  exists nd. split; [ | split; [ | split ] ].
  - unfold nd_from_bytes. rewrite Hf, Hr. cbn [nr_header nr_src nr_type]. fold D. rewrite Hsz. fold n sz. unfold u64_mul.
    replace (sz * n <? 2 ^ 64) with true by lia. cbn [bind]. replace (sz * n =? lenN D) with true by lia. reflexivity.
  - exact Hnd.
  - unfold nd_to_vec. rewrite Hnd, Hnv. cbn [nd_type nd_slice nd]. rewrite E. reflexivity.
  - intros i. unfold nd_get. rewrite Hnd. destruct (N.ltb_spec i (lenN vs)) as [ Hlt | Hge ].
    + unfold nd_get_unchecked. cbn [nd_header nd_type nd_slice nd]. rewrite Hsz. fold sz. unfold usize_mul.
      assert (Hmul : i * sz <= n * sz) by nia. replace (i * sz <=? c_usize_max c) with true by lia. cbn [bind].
      replace (lenN D <? i * sz) with false by lia.
      pose proof (item_read c t f rd blocks (map Some vs) D [] [] i Ho Hs ltac:(now rewrite !app_nil_r) ltac:(rewrite lenN_map; lia)) as H. cbn zeta in H. fold sz in H.
      destruct (run (read_one c rd) (dropN (i * sz) D)) as ([ v | e | ], rest); cbn [fst unwrap bind].
      * destruct H as (H & _). rewrite nth_error_map in H. destruct (nth_error vs (N.to_nat i)); [ | discriminate ]. cbn in H. congruence.
      * exfalso. destruct H as [ (H & _) | (H & _) ]; [ | nia ]. rewrite nth_error_map in H. destruct (nth_error vs _); discriminate.
      * destruct H.
    + f_equal. symmetry. apply nth_error_None. unfold lenN in Hge. lia.
Qed.

Lemma iterate_spec c vs : forall k nd i0, nd_len c nd = lenN vs -> (forall i, nd_get c i nd = Ok (nth_error vs (N.to_nat i))) ->
  i0 + N.of_nat k <= c_usize_max c ->
  iterate c k {| it_data := nd; it_i := i0 |}
  = (map (fun j => Ok (nth_error vs j)) (seq (N.to_nat i0) k), {| it_data := nd; it_i := i0 + N.of_nat k |}).
Proof.
  induction k as [ | k IH ]; intros nd i0 Hn Hg Hi; cbn [iterate seq map].
  - now rewrite N.add_0_r.
  - unfold it_next. cbn [it_data it_i]. replace (c_usize_max c <=? i0) with false by lia. cbn [andb]. rewrite mod_small_id by lia.
    rewrite (IH nd (i0 + 1)) by (auto; lia). rewrite Hg. replace (N.to_nat (i0 + 1)) with (S (N.to_nat i0)) by lia. replace (i0 + 1 + N.of_nat k) with (i0 + N.of_nat (S k)) by lia. reflexivity.
Qed.

Lemma hint_spec c vs nd k : nd_len c nd = lenN vs -> (forall i, nd_get c i nd = Ok (nth_error vs (N.to_nat i))) -> lenN vs < c_usize_max c ->
  (N.of_nat k <= lenN vs -> it_size_hint c (snd (iterate c k (nd_into_iter nd))) = Ok (lenN vs - N.of_nat k))
  /\ (it_size_hint c (snd (iterate c (S (List.length vs)) (nd_into_iter nd))) = if c_ovf_panics c then Panic else Ok (c_usize_max c)).
Proof.
  intros Hn Hg Hl. split.
  - intros Hk. unfold nd_into_iter. rewrite (iterate_spec c vs) by (auto; lia). cbn [snd]. unfold it_size_hint. cbn [it_data it_i]. rewrite Hn.
    replace (0 + N.of_nat k <=? lenN vs) with true by lia. f_equal; lia.
  - unfold nd_into_iter. rewrite (iterate_spec c vs) by (auto; unfold lenN in *; lia). cbn [snd]. unfold it_size_hint. cbn [it_data it_i]. rewrite Hn.
    replace (0 + N.of_nat (S (List.length vs)) <=? lenN vs) with false by (unfold lenN; lia). destruct (c_ovf_panics c); auto. f_equal. unfold lenN. lia.
Qed.

Lemma legacy_agrees c t bs f src' vs cur : strings_fit (c_usize_max c) (h_dtype (nf_header f)) -> wf_cfg c -> bytes_ok bs -> lenN bs <= c_usize_max c ->
  npy_new c {| cur_data := bs; cur_pos := 0 |} = (Ok f, src') -> npy_into_vec c t f = (Ok vs, cur) -> cur_rest cur = [] ->
  lenN vs <= c_usize_max c ->
  exists nd, nd_from_bytes c t bs = Ok nd /\ nd_len c nd = lenN vs /\ nd_to_vec c nd = Ok vs
    /\ (forall i, nd_get c i nd = Ok (nth_error vs (N.to_nat i)))
    /\ (forall k, N.of_nat k <= c_usize_max c -> fst (iterate c k (nd_into_iter nd)) = map (fun i => Ok (nth_error vs i)) (seq 0 k)).
Proof.
  intros Hfit Hcfg Hb Hlen Hf Hv Hend Hvs. destruct (legacy c t bs f src' vs cur Hfit Hcfg Hb Hlen Hf Hv Hend Hvs) as (nd & H1 & H2 & H3 & H4).
  exists nd. repeat (split; [ assumption | ]). intros k Hk. unfold nd_into_iter. now rewrite (iterate_spec c vs).
Qed.
Lemma legacy_hint c t bs f src' vs cur : strings_fit (c_usize_max c) (h_dtype (nf_header f)) -> wf_cfg c -> bytes_ok bs -> lenN bs <= c_usize_max c ->
  npy_new c {| cur_data := bs; cur_pos := 0 |} = (Ok f, src') -> npy_into_vec c t f = (Ok vs, cur) -> cur_rest cur = [] -> lenN vs < c_usize_max c ->
  exists nd, nd_from_bytes c t bs = Ok nd
    /\ forall k, N.of_nat k <= lenN vs -> it_size_hint c (snd (iterate c k (nd_into_iter nd))) = Ok (lenN vs - N.of_nat k).
Proof.
  intros Hfit Hcfg Hb Hlen Hf Hv Hend Hvs. destruct (legacy c t bs f src' vs cur Hfit Hcfg Hb Hlen Hf Hv Hend ltac:(lia)) as (nd & H1 & H2 & H3 & H4).
  exists nd. split; auto. intros k. now apply (hint_spec c vs nd k).
Qed.
Lemma legacy_hint_exhausted c t bs f src' vs cur : strings_fit (c_usize_max c) (h_dtype (nf_header f)) -> wf_cfg c -> bytes_ok bs -> lenN bs <= c_usize_max c ->
  npy_new c {| cur_data := bs; cur_pos := 0 |} = (Ok f, src') -> npy_into_vec c t f = (Ok vs, cur) -> cur_rest cur = [] -> lenN vs < c_usize_max c ->
  exists nd, nd_from_bytes c t bs = Ok nd
    /\ it_size_hint c (snd (iterate c (S (List.length vs)) (nd_into_iter nd))) = (if c_ovf_panics c then Panic else Ok (c_usize_max c)).
Proof.
  intros Hfit Hcfg Hb Hlen Hf Hv Hend Hvs. destruct (legacy c t bs f src' vs cur Hfit Hcfg Hb Hlen Hf Hv Hend ltac:(lia)) as (nd & H1 & H2 & H3 & H4).
  exists nd. split; auto. now apply (hint_spec c vs nd 0).
Qed.

(** * The rest *)
Lemma until_error c t src f src' r items :
  bytes_ok (cur_data src) -> npy_new c src = (Ok f, src') -> npy_data c t f = DOk r -> complete_file t f items -> addressable c f ->
  forall calls, agree_until_error (actual c calls r) (ideal (c_usize_max c) items calls 0).
Proof.
  intros Hb Hf Hr (blocks & more & Hd & Hs & Hn) Ha ks. destruct (data_opens _ _ _ _ _ _ (proj1 Ha) Hb Hf Hr) as (rd & Ho & ->). rewrite at_start.
  apply (histories_gen c t f rd blocks items [] more Ho Ha Hs); auto; try lia. now rewrite app_nil_r.
Qed.
Lemma object_header c d shape o : has_object d -> no_overflow shape -> exists h, from_parts c d shape o = Ok h /\ h_dtype h = d /\ h_shape h = shape.
Proof.
  intros Ho Hs. destruct (from_parts_intro c d shape o Hs) as (h & Hh); [ left; now apply pickled_exact | ]. exists h. split; auto.
  apply from_parts_ok in Hh as (H1 & H2 & _). auto.
Qed.
Lemma try_data_spec c t f :
  (forall r, npy_try_data c t f = inl r <-> npy_data c t f = DOk r)
  /\ (forall f', npy_try_data c t f = inr f' <-> f' = f /\ exists e, npy_data c t f = DErr e).
Proof.
  unfold npy_try_data, npy_data. destruct (h_pickled (nf_header f)).
  - split; intros x; (split; [ intros H; try discriminate | intros H; try discriminate ]).
    + injection H as ->. eauto.
    + destruct H as (-> & _). reflexivity.
  - destruct (reader c t (h_dtype (nf_header f))) as [ rd | e ]; cbn [dbind].
    + split; intros x; split; intros H; try discriminate; try congruence. destruct H as (_ & e & H). discriminate.
    + split; intros x; split; intros H; try discriminate.
      * injection H as ->. eauto.
      * destruct H as (-> & _). reflexivity.
Qed.
Lemma second_attempt c t t' f f' : npy_try_data c t f = inr f' ->
  npy_try_data c t' f' = npy_try_data c t' f /\ npy_data c t' f' = npy_data c t' f /\ npy_into_vec c t' f' = npy_into_vec c t' f
  /\ cur_pos (nf_src f') = cur_pos (nf_src f).
Proof. intros H. apply try_data_spec in H as (-> & _). auto. Qed.
Lemma map_repeatN {A B} (f : A -> B) x n : map f (repeatN x n) = repeatN (f x) n.
Proof. unfold repeatN. induction (N.to_nat n); cbn; congruence. Qed.
