(** Files and sparse matrices of any archive: proofs. *)
From Verif Require Import M_Base M_Text M_TypeStr M_PyLit M_IO M_Header M_Read M_Serialize M_NpyReader M_Write M_Npz M_Sparse.
From Verif Require Import S_Text S_TypeStr S_Python S_DType S_Shape S_Header S_Elem S_Dict S_Open S_Reader S_Write S_Npz S_Sparse S_Archive
  P_Base P_IO P_Header P_Elem P_ElemT P_Sizes P_Reader P_Array P_Open P_Npz.
Open Scope N_scope.

Lemma Forall2_map_r {A B C} (R : A -> C -> Prop) (f : B -> C) l l' : Forall2 R l (map f l') <-> Forall2 (fun a b => R a (f b)) l l'.
Proof.
  split.
  - revert l'. induction l as [ | a l IH ]; intros [ | b l' ] H; inversion H; subst; constructor; auto.
  - induction 1; cbn [map]; constructor; auto.
Qed.

Lemma new_run c bs : npy_new c {| cur_data := bs; cur_pos := 0 |} =
  match run (read_and_interpret c) bs with
  | (Ok h, rest) => let cur := {| cur_data := bs; cur_pos := lenN bs - lenN rest |} in (Ok {| nf_header := h; nf_src := cur |}, cur)
  | (Err e, rest) => (Err e, {| cur_data := bs; cur_pos := lenN bs - lenN rest |})
  | (Panic, rest) => (Panic, {| cur_data := bs; cur_pos := lenN bs - lenN rest |})
  end.
Proof.
  unfold npy_new, run_cursor. change (cur_rest {| cur_data := bs; cur_pos := 0 |}) with bs. cbn [cur_data cur_pos].
  destruct (run (read_and_interpret c) bs) as ([ h | e | ], rest); rewrite N.add_0_l; reflexivity.
Qed.
Lemma new_rest {A} (p : rprog A) bs x rest : run p bs = (x, rest) -> cur_rest {| cur_data := bs; cur_pos := lenN bs - lenN rest |} = rest.
Proof.
  intros E. apply run_suffix in E as (used & ->). unfold cur_rest. cbn [cur_data cur_pos]. rewrite lenN_app.
  replace (lenN used + lenN rest - lenN rest) with (lenN used) by lia. now apply dropN_app.
Qed.

(** A file read whole, from its bytes. *)
Lemma stored_items t d blocks vs : Forall bytes_ok blocks -> stored t d blocks (map Some vs) <-> Forall2 (fun b v => lenN b = size d /\ decode t d b = Some v) blocks vs.
Proof.
  intros Hb. unfold stored. rewrite Forall2_map_r. split; intros H.
  - clear Hb. induction H as [ | ? ? ? ? (? & ? & ?) ]; constructor; auto.
  - induction H as [ | b v bl vs (H1 & H2) ]; [ constructor | ]. apply Forall_cons_iff in Hb as (Hb & Hbs). constructor; auto.
Qed.
Lemma concat_ok blocks more : bytes_ok (List.concat blocks ++ more) -> Forall bytes_ok blocks.
Proof.
  unfold bytes_ok. intros H. apply Forall_app in H as (H & _). induction blocks as [ | b l IH ]; [ constructor | ]. cbn [List.concat] in H.
  apply Forall_app in H as (H1 & H2). constructor; auto.
Qed.

Lemma whole_file c t bs d shape o vs : strings_fit (c_usize_max c) d -> bytes_ok bs ->
  (exists f cur, npy_new c {| cur_data := bs; cur_pos := 0 |} = (Ok f, cur) /\ h_dtype (nf_header f) = d /\ h_shape (nf_header f) = shape /\ h_order (nf_header f) = o
     /\ fst (npy_into_vec c t f) = Ok vs)
  <-> file_of c t bs d shape o vs.
Proof.
  intros Hfit Hb. split.
  - intros (f & cur & Hf & Hd & Hsh & Ho & Hv). rewrite <- Hd in Hfit.
    assert (Hr : exists r, npy_data c t f = DOk r).
    { unfold npy_into_vec in Hv. destruct (npy_data c t f) as [ r | e ]; [ eauto | discriminate ]. }
    destruct Hr as (r & Hr). pose proof (into_vec_exact c t {| cur_data := bs; cur_pos := 0 |} _ _ _ vs Hfit Hb Hf Hr) as Hx. apply Hx in Hv as (blocks & more & Hrest & Hst & Hn).
    pose proof Hf as Hf'. rewrite new_run in Hf'. destruct (run (read_and_interpret c) bs) as ([ h | e | ], rest) eqn:E; try discriminate.
    apply pair_inj in Hf' as (Hf' & _). apply Ok_inj in Hf' as <-. cbn [nf_header nf_src] in *. rewrite (new_rest _ _ _ _ E) in Hrest.
    pose proof E as E'. apply open_exact in E' as (pre & txt & v & d' & shape' & o' & Hbs & Hp & Ht & Hs & Hnm & Hc & Hnum); [ | auto ].
    pose proof Hnum as (N1 & N2 & N3 & N4 & N5 & N6 & N7 & N8). subst d' shape' o'.
    unfold npy_data in Hr. cbn [nf_header] in Hr. destruct (h_pickled h) eqn:Ek; [ discriminate | ].
    destruct (reader c t (h_dtype h)) as [ rd | e ] eqn:Er; [ | discriminate ].
    subst d shape o. split; [ | split ].
    + intros Hob. apply N6 in Hob. discriminate.
    + apply reader_accepts. eauto.
    + exists rest. split; [ exists pre, txt, v; auto 10 | ]. exists blocks, more. split; [ auto | ].
      rewrite lenN_map in Hn. split; [ | congruence ]. apply stored_items; [ | auto ].
      apply (concat_ok blocks more). rewrite <- Hrest. rewrite Hbs in Hb. now apply Forall_app in Hb as (_ & Hb).
  - intros (Hob & Hacc & data & (pre & txt & v & Hbs & Hp & Ht & Hs & Hnm & Hc) & blocks & more & Hdata & Hitems & Hlen).
    destruct (from_parts_numbers c d shape o Hnm Hc) as (h & Hfp & Hnum).
      assert (E : run (read_and_interpret c) bs = (Ok h, data)) by (apply open_exact; [ auto | ]; exists pre, txt, v, d, shape, o; auto 10).
      pose proof (new_run c bs) as Hnew. rewrite E in Hnew. cbv zeta in Hnew. eexists _, _. split; [ exact Hnew | ]. cbn [nf_header].
      pose proof Hnum as (N1 & N2 & N3 & N4 & N5 & N6 & N7 & N8). repeat (split; [ assumption | ]).
      apply reader_accepts in Hacc as (rd & Hrd).
      assert (Hk : h_pickled h = false) by (destruct (h_pickled h); [ exfalso; apply Hob, N6; reflexivity | reflexivity ]).
      eapply into_vec_exact; [ | | exact Hnew | | ].
      + cbn [nf_header]. rewrite N1. exact Hfit.
      + exact Hb.
      + unfold npy_data. cbn [nf_header nf_src]. rewrite Hk, N1, Hrd. reflexivity.
      + exists blocks, more. cbn [nf_header nf_src]. rewrite (new_rest _ _ _ _ E). split; [ exact Hdata | ]. rewrite N1, N4, lenN_map. split; [ | auto ].
        apply stored_items; [ | auto ]. apply (concat_ok blocks more). rewrite <- Hdata. rewrite Hbs in Hb. now apply Forall_app in Hb as (_ & Hb).
Qed.

Lemma replicate_no_panic c t d rd : wf_dtype d -> strings_fit (c_usize_max c) d -> reader c t d = DOk rd -> forall n input, bytes_ok input -> fst (run (rreplicate n (read_one c rd)) input) <> Panic.
Proof.
  intros Hw Hfit Hr. induction n as [ | n IH ]; intros input Hb; [ discriminate | ]. rewrite run_rreplicate_S.
  pose proof (no_panic_read c t d rd input Hw Hfit Hr Hb) as Hp. destruct (run (read_one c rd) input) as ([ v | e | ], rest) eqn:E; cbn [fst then_] in *; [ | discriminate | congruence ].
  apply run_suffix in E as (used & ->). apply Forall_app in Hb as (_ & Hb). specialize (IH rest Hb).
  destruct (run (rreplicate n (read_one c rd)) rest) as ([ l | e | ], r'); cbn [fst then_] in *; [ discriminate | discriminate | congruence ].
Qed.
Lemma into_vec_no_panic c t src f src' : strings_fit (c_usize_max c) (h_dtype (nf_header f)) -> bytes_ok (cur_data src) -> npy_new c src = (Ok f, src') -> fst (npy_into_vec c t f) <> Panic.
Proof.
  intros Hfit Hb Hf. destruct (npy_data c t f) as [ r | e ] eqn:Hr; [ | unfold npy_into_vec; rewrite Hr; discriminate ].
  rewrite (into_vec_run c t f r Hr). destruct (data_opened _ _ _ _ _ _ Hb Hf Hr) as (rd & (Hw & Hn & Hrd & Hsz) & ->). cbn [nr_type].
  assert (Hb' : bytes_ok (cur_rest (nf_src f))) by (apply cur_rest_ok; now rewrite (opened_data _ _ _ _ Hf)).
  pose proof (replicate_no_panic c t _ rd Hw Hfit Hrd (N.to_nat (h_n_records (nf_header f))) _ Hb') as H.
  unfold run_cursor. destruct (run _ _) as (x, rest). exact H.
Qed.

(** * Entries *)
Lemma entry_find a name bs : zip_find (file_name_from_array_name name) a = Some bs <-> entry a name bs.
Proof.
  unfold entry, file_name_from_array_name. split.
  - induction a as [ | (f, b) a IH ]; cbn [zip_find]; [ discriminate | ]. destruct (zip_find (name ++ lit ".npy") a) as [ x | ] eqn:E.
    + intros [= ->]. destruct (IH eq_refl) as (before & after & -> & H). exists ((f, b) :: before), after. auto.
    + destruct (eqb_list f (name ++ lit ".npy")) eqn:Ef; [ | discriminate ]. intros [= ->]. apply eqb_list_eq in Ef as ->. exists [], a. split; [ reflexivity | ].
      now apply find_none.
  - intros (before & after & -> & H). rewrite find_app. cbn [zip_find]. apply find_none in H as ->.
    replace (eqb_list (name ++ lit ".npy") (name ++ lit ".npy")) with true by (symmetry; now apply eqb_list_eq). reflexivity.
Qed.
Lemma entry_ok c a name bs : entries_ok c a -> entry a name bs -> bytes_ok bs.
Proof. intros Ha (before & after & -> & _). apply Forall_app in Ha as (_ & Ha). now apply Forall_cons_iff in Ha as ((Ha & _) & _). Qed.
Lemma entry_fits c a name bs d shape o data : entries_ok c a -> entry a name bs -> file_header c bs d shape o data -> strings_fit (c_usize_max c) d.
Proof. intros Ha (before & after & -> & _). apply Forall_app in Ha as (_ & Ha). apply Forall_cons_iff in Ha as ((_ & Ha) & _). apply Ha. Qed.
Lemma new_header c bs f cur : bytes_ok bs -> npy_new c {| cur_data := bs; cur_pos := 0 |} = (Ok f, cur) ->
  exists data, file_header c bs (h_dtype (nf_header f)) (h_shape (nf_header f)) (h_order (nf_header f)) data.
Proof.
  intros Hb H. rewrite new_run in H. destruct (run (read_and_interpret c) bs) as ([ h | e | ], rest) eqn:E; try discriminate.
  apply pair_inj in H as (H & _). apply Ok_inj in H as <-. cbn [nf_header]. apply open_exact in E as (pre & txt & v & d & shape & o & Hbs & Hp & Ht & Hs & Hnm & Hc & Hnum); [ | auto ].
  pose proof Hnum as (-> & -> & -> & _). exists rest, pre, txt, v. auto 10.
Qed.
Lemma new_fits c a name bs f cur : entries_ok c a -> entry a name bs -> npy_new c {| cur_data := bs; cur_pos := 0 |} = (Ok f, cur) ->
  strings_fit (c_usize_max c) (h_dtype (nf_header f)).
Proof.
  intros Ha He Hn. destruct (new_header c bs f cur (entry_ok _ _ _ _ Ha He) Hn) as (data & Hh). eapply entry_fits; eauto.
Qed.
Lemma entry_fun a name bs bs' : entry a name bs -> entry a name bs' -> bs = bs'.
Proof. intros H H'. apply entry_find in H, H'. congruence. Qed.

Lemma by_name_inv c a name f : by_name c a name = Ok (Some f) <-> exists bs cur, entry a name bs /\ npy_new c {| cur_data := bs; cur_pos := 0 |} = (Ok f, cur).
Proof.
  unfold by_name. split.
  - destruct (zip_find _ a) as [ bs | ] eqn:E; [ | discriminate ]. destruct (npy_new c _) as ([ f' | e | ], cur) eqn:En; cbn [fst bind]; try discriminate.
    intros [= ->]. exists bs, cur. split; [ now apply entry_find | auto ].
  - intros (bs & cur & He & Hn). apply entry_find in He as ->. rewrite Hn. reflexivity.
Qed.
Lemma by_name_panic c a name : entries_ok c a -> by_name c a name = Panic <-> exists bs, entry a name bs /\ file_panics c bs.
Proof.
  intros Ha. unfold by_name. split.
  - destruct (zip_find _ a) as [ bs | ] eqn:E; [ | discriminate ]. apply entry_find in E. intros H. exists bs. split; [ auto | ].
    apply open_panic_exact; [ exact (entry_ok _ _ _ _ Ha E) | ]. rewrite new_run in H. destruct (run (read_and_interpret c) bs) as ([ h | e | ], rest); cbn in H |- *; congruence.
  - intros (bs & He & Hp). pose proof (entry_ok _ _ _ _ Ha He) as Hb. apply entry_find in He as ->. apply open_panic_exact in Hp; [ | exact Hb ].
    rewrite new_run. destruct (run (read_and_interpret c) bs) as ([ h | e | ], rest); cbn in Hp |- *; congruence.
Qed.
Lemma found_exact c a name t d o shape vs : entries_ok c a -> found c a name t d o shape vs <-> array_in c a name t d o shape vs.
Proof.
  intros Ha. unfold found, array_in. split.
  - intros (f & Hf & Hd & Ho & Hs & Hv). apply by_name_inv in Hf as (bs & cur & He & Hn). exists bs. split; [ auto | ].
    apply whole_file; [ rewrite <- Hd; eapply new_fits; eauto | exact (entry_ok _ _ _ _ Ha He) | ]. exists f, cur. auto.
  - intros (bs & He & Hf). apply whole_file in Hf as (f & cur & Hn & Hd & Hs & Ho & Hv); [ | destruct Hf as (_ & _ & data & Hh & _); eapply entry_fits; eauto | exact (entry_ok _ _ _ _ Ha He) ].
    exists f. split; [ apply by_name_inv; eauto | auto ].
Qed.
Lemma array_typed c a name t d o shape vs : entries_ok c a -> array_in c a name t d o shape vs -> Forall (has_type t) vs.
Proof.
  intros Ha (bs & He & _ & Hacc & data & (pre & txt & v & Hbs & _) & blocks & more & Hdata & Hitems & _).
  assert (Hb : Forall bytes_ok blocks). { apply (concat_ok blocks more). rewrite <- Hdata. apply (entry_ok _ _ _ _ Ha) in He. rewrite Hbs in He. now apply Forall_app in He as (_ & He). }
  clear - Hacc Hitems Hb. induction Hitems as [ | b v bl vs (H1 & H2) ]; [ constructor | ]. apply Forall_cons_iff in Hb as (Hb & Hbs). constructor; [ | auto ].
  eapply decode_typed; eauto.
Qed.

(** * Parts of a sparse matrix *)
Lemma ndim_ok c a name n f : extract_and_check_ndim c a name n = Ok f <-> by_name c a name = Ok (Some f) /\ lenN (h_shape (nf_header f)) = n.
Proof.
  unfold extract_and_check_ndim. destruct (by_name c a name) as [ [ f' | ] | e | ]; cbn [bind].
  - destruct (lenN (h_shape (nf_header f')) =? n) eqn:E.
    + split; [ intros [= <-]; split; [ reflexivity | lia ] | intros ([= <-] & _); reflexivity ].
    + split; [ discriminate | intros ([= <-] & H); lia ].
  - split; [ discriminate | intros ([=] & _) ].
  - split; [ discriminate | intros ([=] & _) ].
  - split; [ discriminate | intros ([=] & _) ].
Qed.
Lemma ndim_panic c a name n : entries_ok c a -> extract_and_check_ndim c a name n = Panic <-> exists bs, entry a name bs /\ file_panics c bs.
Proof.
  intros Ha. rewrite <- by_name_panic by auto. unfold extract_and_check_ndim. destruct (by_name c a name) as [ [ f' | ] | e | ]; cbn [bind].
  - destruct (_ =? n); split; discriminate.
  - split; discriminate.
  - split; discriminate.
  - tauto.
Qed.
Lemma named_no_panic c t a name f : entries_ok c a -> by_name c a name = Ok (Some f) -> fst (npy_into_vec c t f) <> Panic.
Proof.
  intros Ha H. apply by_name_inv in H as (bs & cur & He & Hn). apply (into_vec_no_panic c t {| cur_data := bs; cur_pos := 0 |} f cur); [ eapply new_fits; eauto | | exact Hn ].
  exact (entry_ok _ _ _ _ Ha He).
Qed.
Lemma one_axis (shape : list N) : lenN shape = 1 <-> exists n, shape = [n].
Proof. split; [ | intros (n & ->); reflexivity ]. destruct shape as [ | n [ | m l ] ]; unfold lenN; cbn [List.length]; [ lia | eauto | lia ]. Qed.

Lemma extract_1d_exact c a t name vs : entries_ok c a -> extract_1d c a t name = Ok vs <-> exists d o n, array_in c a name t d o [n] vs.
Proof.
  intros Ha. unfold extract_1d. split.
  - destruct (extract_and_check_ndim c a name 1) as [ f | e | ] eqn:E; cbn [bind]; try discriminate. intros H. apply ndim_ok in E as (E & Hn). apply one_axis in Hn as (n & Hn).
    exists (h_dtype (nf_header f)), (h_order (nf_header f)), n. apply found_exact; [ auto | ]. exists f. auto.
  - intros (d & o & n & H). apply found_exact in H as (f & Hf & _ & _ & Hs & Hv); [ | auto ].
    assert (E : extract_and_check_ndim c a name 1 = Ok f) by (apply ndim_ok; rewrite Hs; auto). rewrite E. exact Hv.
Qed.
Lemma extract_1d_panic c a t name : entries_ok c a -> extract_1d c a t name = Panic <-> exists bs, entry a name bs /\ file_panics c bs.
Proof.
  intros Ha. rewrite <- (ndim_panic c a name 1) by auto. unfold extract_1d. destruct (extract_and_check_ndim c a name 1) as [ f | e | ] eqn:E; cbn [bind]; [ | split; discriminate | tauto ].
  apply ndim_ok in E as (E & _). pose proof (named_no_panic c t a name f Ha E). split; [ contradiction | discriminate ].
Qed.

Lemma extract_nd_exact c a t name ndim vs sh : entries_ok c a ->
  extract_nd c a t name ndim = Ok (vs, sh) <-> exists d shape, array_in c a name t d OrderC shape vs /\ lenN shape = ndim /\ sh = map (fun n => n mod (c_usize_max c + 1)) shape.
Proof.
  intros Ha. unfold extract_nd. split.
  - destruct (extract_and_check_ndim c a name ndim) as [ f | e | ] eqn:E; cbn [bind]; try discriminate. apply ndim_ok in E as (E & Hn).
    destruct (h_order (nf_header f)) eqn:Eo; [ | discriminate ]. destruct (fst (npy_into_vec c t f)) as [ vs' | e | ] eqn:Ev; cbn [bind]; try discriminate.
    intros [= -> <-]. exists (h_dtype (nf_header f)), (h_shape (nf_header f)). split; [ | auto ]. apply found_exact; [ auto | ]. exists f. auto.
  - intros (d & shape & H & Hn & ->). apply found_exact in H as (f & Hf & _ & Ho & Hs & Hv); [ | auto ].
    assert (E : extract_and_check_ndim c a name ndim = Ok f) by (apply ndim_ok; rewrite Hs; auto). rewrite E. cbn [bind]. rewrite Ho, Hv, Hs. reflexivity.
Qed.
Lemma extract_nd_panic c a t name ndim : entries_ok c a -> extract_nd c a t name ndim = Panic <-> exists bs, entry a name bs /\ file_panics c bs.
Proof.
  intros Ha. rewrite <- (ndim_panic c a name ndim) by auto. unfold extract_nd. destruct (extract_and_check_ndim c a name ndim) as [ f | e | ] eqn:E; cbn [bind]; [ | split; discriminate | tauto ].
  apply ndim_ok in E as (E & _). pose proof (named_no_panic c t a name f Ha E). destruct (h_order (nf_header f)); [ | split; discriminate ].
  destruct (fst (npy_into_vec c t f)); cbn [bind]; split; try discriminate; contradiction.
Qed.

Lemma try_data_collect c t f r : npy_try_data c t f = inl r -> collect_all c r = fst (npy_into_vec c t f).
Proof.
  intros H. pose proof H as Hd. apply try_data_spec in Hd. unfold npy_into_vec. rewrite Hd.
  unfold npy_try_data in H. destruct (h_pickled (nf_header f)); [ discriminate | ]. destruct (reader c t (h_dtype (nf_header f))); [ | discriminate ]. injection H as <-.
  unfold collect_all, nr_total_len. cbn [nr_header]. destruct (nr_collect c _ _). reflexivity.
Qed.
Lemma into_vec_try c t f vs : fst (npy_into_vec c t f) = Ok vs -> exists r, npy_try_data c t f = inl r.
Proof.
  unfold npy_into_vec. destruct (npy_data c t f) as [ r | e ] eqn:E; [ | discriminate ]. intros _. exists r. now apply try_data_spec.
Qed.
Lemma int_vals w vs : Forall (has_type (RInt true w)) vs -> vs = map XInt (map int_of vs).
Proof. induction 1 as [ | v vs H _ IH ]; [ reflexivity | ]. cbn [map]. rewrite <- IH. destruct v; cbn in H; try contradiction. reflexivity. Qed.
Lemma int_of_XInt l : map int_of (map XInt l) = l.
Proof. rewrite map_map. cbn [int_of]. apply map_id. Qed.

Lemma not_both c f r4 r8 : npy_try_data c i32_type f = inl r4 -> npy_try_data c i64_type f = inl r8 -> False.
Proof.
  unfold npy_try_data. destruct (h_pickled (nf_header f)); [ discriminate | ].
  destruct (reader c i32_type (h_dtype (nf_header f))) as [ rd4 | ] eqn:E4; [ | discriminate ]. destruct (reader c i64_type (h_dtype (nf_header f))) as [ rd8 | ] eqn:E8; [ | discriminate ].
  intros _ _. assert (H4 : accepts (c_usize_max c) Reading i32_type (h_dtype (nf_header f))) by (apply reader_accepts; eauto).
  assert (H8 : accepts (c_usize_max c) Reading i64_type (h_dtype (nf_header f))) by (apply reader_accepts; eauto).
  destruct (h_dtype (nf_header f)) as [ ts | | ]; cbn in H4, H8; [ | contradiction | contradiction ]. destruct H4 as (H4 & _), H8 as (H8 & _).
  destruct (ts_char ts); try contradiction; intuition (try discriminate; try lia).
Qed.

Lemma extract_signed_exact c a name l : entries_ok c a -> extract_signed_indices c a name = Ok l <-> integers_in c a name l.
Proof.
  intros Ha. unfold extract_signed_indices, integers_in. split.
  - destruct (extract_and_check_ndim c a name 1) as [ f | e | ] eqn:E; cbn [bind]; try discriminate. apply ndim_ok in E as (E & Hn). apply one_axis in Hn as (n & Hn).
    assert (G : forall w r, npy_try_data c (RInt true w) f = inl r -> (let* vs := collect_all c r in Ok (map int_of vs)) = Ok l ->
              exists d o n, array_in c a name (RInt true w) d o [n] (map XInt l)).
    { intros w r Hr H. rewrite (try_data_collect c (RInt true w) f r Hr) in H. destruct (fst (npy_into_vec c (RInt true w) f)) as [ vs | e | ] eqn:Ev; cbn [bind] in H; try discriminate.
      injection H as <-. exists (h_dtype (nf_header f)), (h_order (nf_header f)), n.
      assert (A : array_in c a name (RInt true w) (h_dtype (nf_header f)) (h_order (nf_header f)) [n] vs) by (apply found_exact; [ auto | ]; exists f; auto).
      rewrite <- (int_vals w vs); [ exact A | ]. now apply array_typed in A. }
    destruct (npy_try_data c i32_type f) as [ r | f' ] eqn:E4.
    + intros H. destruct (G W4 r E4 H) as (d & o & m & A). exists W4, d, o, m. auto.
    + assert (f' = f) as ->. { apply (proj2 (try_data_spec c i32_type f)) in E4. tauto. }
      destruct (npy_try_data c i64_type f) as [ r | f'' ] eqn:E8; [ | discriminate ].
      intros H. destruct (G W8 r E8 H) as (d & o & m & A). exists W8, d, o, m. auto.
  - intros (w & d & o & n & Hw & A). apply found_exact in A as (f & Hf & _ & _ & Hs & Hv); [ | auto ].
    assert (E : extract_and_check_ndim c a name 1 = Ok f) by (apply ndim_ok; rewrite Hs; auto). rewrite E. cbn [bind].
    destruct (into_vec_try _ _ _ _ Hv) as (r & Hr).
    assert (Hc : (let* vs := collect_all c r in Ok (map int_of vs)) = Ok l) by (rewrite (try_data_collect _ _ _ _ Hr), Hv; cbn [bind]; now rewrite int_of_XInt).
    destruct Hw as [ -> | -> ].
    + change (RInt true W4) with i32_type in Hr. rewrite Hr. exact Hc.
    + change (RInt true W8) with i64_type in Hr. destruct (npy_try_data c i32_type f) as [ r4 | f' ] eqn:E4; [ exfalso; eauto using not_both | ].
      assert (f' = f) as ->. { apply (proj2 (try_data_spec c i32_type f)) in E4. tauto. }
      rewrite Hr. exact Hc.
Qed.
Lemma extract_signed_panic c a name : entries_ok c a -> extract_signed_indices c a name = Panic <-> exists bs, entry a name bs /\ file_panics c bs.
Proof.
  intros Ha. rewrite <- (ndim_panic c a name 1) by auto. unfold extract_signed_indices.
  destruct (extract_and_check_ndim c a name 1) as [ f | e | ] eqn:E; cbn [bind]; [ | split; discriminate | tauto ].
  apply ndim_ok in E as (E & _). assert (G : forall t r, npy_try_data c t f = inl r -> (let* vs := collect_all c r in Ok (map int_of vs)) <> Panic).
  { intros t r Hr. rewrite (try_data_collect _ _ _ _ Hr). pose proof (named_no_panic c t a name f Ha E). destruct (fst (npy_into_vec c t f)); cbn [bind]; congruence. }
  split; [ | discriminate ]. destruct (npy_try_data c i32_type f) as [ r | f' ] eqn:E4; [ intros H; now apply (G _ _ ltac:(eassumption)) in H | ].
  assert (f' = f) as ->. { apply (proj2 (try_data_spec c i32_type f)) in E4. tauto. }
  destruct (npy_try_data c i64_type f) as [ r | f'' ] eqn:E8; [ intros H; now apply (G _ _ ltac:(eassumption)) in H | discriminate ].
Qed.

Lemma extract_indices_signed c a name : extract_indices c a name = let* l := extract_signed_indices c a name in Ok (map to_u64 l).
Proof.
  unfold extract_indices, extract_signed_indices. destruct (extract_and_check_ndim c a name 1) as [ f | e | ]; cbn [bind]; [ | reflexivity | reflexivity ].
  destruct (npy_try_data c i32_type f) as [ r | f' ]; [ | destruct (npy_try_data c i64_type f') as [ r | f'' ]; [ | reflexivity ] ];
    destruct (collect_all c r); cbn [bind]; [ now rewrite map_map | reflexivity | reflexivity | now rewrite map_map | reflexivity | reflexivity ].
Qed.
Lemma extract_indices_exact c a name l : entries_ok c a -> extract_indices c a name = Ok l <-> unsigned_in c a name l.
Proof.
  intros Ha. rewrite extract_indices_signed. unfold unsigned_in. split.
  - destruct (extract_signed_indices c a name) as [ zs | e | ] eqn:E; cbn [bind]; try discriminate. intros [= <-]. apply extract_signed_exact in E; [ | auto ]. exists zs. auto.
  - intros (zs & H & ->). apply extract_signed_exact in H as ->; [ | auto ]. reflexivity.
Qed.
Lemma extract_indices_panic c a name : entries_ok c a -> extract_indices c a name = Panic <-> exists bs, entry a name bs /\ file_panics c bs.
Proof. intros Ha. rewrite <- extract_signed_panic by auto. rewrite extract_indices_signed. destruct (extract_signed_indices c a name); cbn [bind]; split; congruence. Qed.
Lemma extract_usize_exact c a name l : entries_ok c a -> extract_usize_indices c a name = Ok l <-> sizes_in c a name l.
Proof.
  intros Ha. unfold extract_usize_indices, sizes_in. split.
  - destruct (extract_indices c a name) as [ us | e | ] eqn:E; cbn [bind]; try discriminate. intros [= <-]. apply extract_indices_exact in E; [ | auto ]. exists us. auto.
  - intros (us & H & ->). apply extract_indices_exact in H as ->; [ | auto ]. reflexivity.
Qed.
Lemma extract_usize_panic c a name : entries_ok c a -> extract_usize_indices c a name = Panic <-> exists bs, entry a name bs /\ file_panics c bs.
Proof. intros Ha. rewrite <- extract_indices_panic by auto. unfold extract_usize_indices. destruct (extract_indices c a name); cbn [bind]; split; congruence. Qed.
Lemma extract_shape_exact c a s : entries_ok c a -> extract_shape c a (lit "shape") = Ok s <-> shape_in c a s.
Proof.
  intros Ha. unfold extract_shape, shape_in. rewrite <- extract_indices_exact by auto. destruct s as (x, y). cbn [fst snd].
  destruct (extract_indices c a (lit "shape")) as [ l | e | ]; cbn [bind]; [ | split; discriminate | split; discriminate ].
  destruct l as [ | x' [ | y' [ | z l ] ] ]; split; intros H; try discriminate; injection H as -> ->; reflexivity.
Qed.
Lemma extract_shape_panic c a : entries_ok c a -> extract_shape c a (lit "shape") = Panic <-> exists bs, entry a (lit "shape") bs /\ file_panics c bs.
Proof.
  intros Ha. rewrite <- extract_indices_panic by auto. unfold extract_shape. destruct (extract_indices c a (lit "shape")) as [ l | e | ]; cbn [bind]; [ | split; congruence | tauto ].
  destruct l as [ | x' [ | y' [ | z l ] ] ]; split; discriminate.
Qed.

(** Zero-dimensional arrays have one item. *)
Lemma scalar_one c a name t d o vs : array_in c a name t d o [] vs -> exists v, vs = [v].
Proof.
  intros (bs & _ & _ & _ & data & _ & blocks & more & _ & _ & Hl). change (count [] mod 2 ^ 64) with 1 in Hl.
  destruct vs as [ | v [ | w l ] ]; unfold lenN in Hl; cbn [List.length] in Hl; [ lia | eauto | lia ].
Qed.
Lemma format_exact c a b : entries_ok c a -> the_format c a = Ok b <-> exists d o, array_in c a (lit "format") RVecU8 d o [] [XBytes b].
Proof.
  intros Ha. unfold the_format, extract_scalar. split.
  - destruct (extract_and_check_ndim c a (lit "format") 0) as [ f | e | ] eqn:E; cbn [bind]; try discriminate. apply ndim_ok in E as (E & Hn).
    destruct (fst (npy_into_vec c RVecU8 f)) as [ vs | e | ] eqn:Ev; cbn [bind]; try discriminate.
    assert (Hs : h_shape (nf_header f) = []) by (destruct (h_shape (nf_header f)); [ reflexivity | rewrite lenN_cons in Hn; lia ]).
    assert (A : array_in c a (lit "format") RVecU8 (h_dtype (nf_header f)) (h_order (nf_header f)) [] vs) by (apply found_exact; [ auto | ]; exists f; auto).
    destruct (scalar_one _ _ _ _ _ _ _ A) as (v & ->). cbn [bind]. intros H. exists (h_dtype (nf_header f)), (h_order (nf_header f)).
    destruct v; try discriminate. injection H as ->. exact A.
  - intros (d & o & A). apply found_exact in A as (f & Hf & _ & _ & Hs & Hv); [ | auto ].
    assert (E : extract_and_check_ndim c a (lit "format") 0 = Ok f) by (apply ndim_ok; rewrite Hs; auto). rewrite E. cbn [bind]. rewrite Hv. reflexivity.
Qed.
Lemma format_panic c a : entries_ok c a -> the_format c a = Panic <-> exists bs, entry a (lit "format") bs /\ file_panics c bs.
Proof.
  intros Ha. rewrite <- (ndim_panic c a (lit "format") 0) by auto. unfold the_format, extract_scalar.
  destruct (extract_and_check_ndim c a (lit "format") 0) as [ f | e | ] eqn:E; cbn [bind]; [ | split; discriminate | tauto ]. apply ndim_ok in E as (E & Hn).
  pose proof (named_no_panic c RVecU8 a (lit "format") f Ha E) as Hp. destruct (fst (npy_into_vec c RVecU8 f)) as [ vs | e | ] eqn:Ev; cbn [bind]; [ | split; discriminate | congruence ].
  assert (Hs : h_shape (nf_header f) = []) by (destruct (h_shape (nf_header f)); [ reflexivity | rewrite lenN_cons in Hn; lia ]).
  assert (A : array_in c a (lit "format") RVecU8 (h_dtype (nf_header f)) (h_order (nf_header f)) [] vs) by (apply found_exact; [ auto | ]; exists f; auto).
  destruct (scalar_one _ _ _ _ _ _ _ A) as (v & ->). cbn [bind]. apply array_typed in A; [ | auto ]. apply Forall_cons_iff in A as (A & _). destruct v; cbn in A; try contradiction.
  split; discriminate.
Qed.
Lemma expect_exact c a f : entries_ok c a -> expect_format c a (format_name f) = Ok tt <-> format_in c a f.
Proof.
  intros Ha. unfold format_in. rewrite <- format_exact by auto. unfold expect_format. destruct (the_format c a) as [ b | e | ]; cbn [bind]; [ | split; discriminate | split; discriminate ].
  destruct (eqb_list b (format_name f)) eqn:E; [ apply eqb_list_eq in E as ->; split; reflexivity | ]. split; [ discriminate | ]. intros [= ->].
  assert (eqb_list (format_name f) (format_name f) = true) by now apply eqb_list_eq. congruence.
Qed.
Lemma expect_panic c a f : entries_ok c a -> expect_format c a (format_name f) = Panic <-> exists bs, entry a (lit "format") bs /\ file_panics c bs.
Proof.
  intros Ha. rewrite <- format_panic by auto. unfold expect_format. destruct (the_format c a) as [ b | e | ]; cbn [bind]; [ | split; congruence | tauto ].
  destruct (eqb_list b (format_name f)); split; discriminate.
Qed.

(** * Whole matrices *)
Lemma bind_ok {A B} (r : res A) (k : A -> res B) b : bind r k = Ok b <-> exists x, r = Ok x /\ k x = Ok b.
Proof. split; [ destruct r as [ x | e | ]; cbn [bind]; [ eauto | discriminate | discriminate ] | intros (x & -> & H); exact H ]. Qed.
Lemma bind_panic {A B} (r : res A) (k : A -> res B) : bind r k = Panic <-> r = Panic \/ exists x, r = Ok x /\ k x = Panic.
Proof.
  split; [ destruct r as [ x | e | ]; cbn [bind]; [ eauto | discriminate | auto ] | ]. intros [ -> | (x & -> & H) ]; [ reflexivity | exact H ].
Qed.
Lemma two_axes (shape : list N) : lenN shape = 2 <-> exists n k, shape = [n; k].
Proof. split; [ | intros (n & k & ->); reflexivity ]. destruct shape as [ | n [ | m [ | p l ] ] ]; unfold lenN; cbn [List.length]; first [ lia | eauto ]. Qed.
Lemma three_axes (shape : list N) : lenN shape = 3 <-> exists n b0 b1, shape = [n; b0; b1].
Proof. split; [ | intros (n & b0 & b1 & ->); reflexivity ]. destruct shape as [ | n [ | m [ | p [ | q l ] ] ] ]; unfold lenN; cbn [List.length]; first [ lia | eauto ]. Qed.

Lemma read_coo c t a m : entries_ok c a -> coo_from_npz c t a = Ok m <-> represents c t a (Coo m).
Proof.
  intros Ha. unfold coo_from_npz, represents. cbn [format_of]. split.
  - intros H. apply bind_ok in H as (u & H1 & H). apply bind_ok in H as (s & H2 & H). apply bind_ok in H as (r & H3 & H). apply bind_ok in H as (k & H4 & H).
    apply bind_ok in H as (vs & H5 & H). destruct u. injection H as <-. cbn [coo_shape coo_row coo_col coo_data].
    apply (expect_exact c a FCoo Ha) in H1. apply extract_shape_exact in H2; [ | auto ]. apply extract_indices_exact in H3; [ | auto ]. apply extract_indices_exact in H4; [ | auto ].
    apply extract_1d_exact in H5; [ | auto ]. auto 10.
  - destruct m as [ s vs r k ]. cbn [coo_shape coo_row coo_col coo_data]. intros (H1 & H2 & H3 & H4 & H5). apply bind_ok. exists tt. split; [ now apply (expect_exact c a FCoo Ha) | ].
    apply bind_ok. exists s. split; [ now apply extract_shape_exact | ]. apply bind_ok. exists r. split; [ now apply extract_indices_exact | ]. apply bind_ok. exists k. split; [ now apply extract_indices_exact | ].
    apply bind_ok. exists vs. split; [ now apply extract_1d_exact | reflexivity ].
Qed.
Lemma read_csr c t a m : entries_ok c a -> csr_from_npz c t a = Ok m <-> represents c t a (Csr m).
Proof.
  intros Ha. unfold csr_from_npz, represents, compressed_in. cbn [format_of]. split.
  - intros H. apply bind_ok in H as (u & H1 & H). apply bind_ok in H as (s & H2 & H). apply bind_ok in H as (r & H3 & H). apply bind_ok in H as (k & H4 & H).
    apply bind_ok in H as (vs & H5 & H). destruct u. injection H as <-. cbn [csr_shape csr_indices csr_indptr csr_data].
    apply (expect_exact c a FCsr Ha) in H1. apply extract_shape_exact in H2; [ | auto ]. apply extract_indices_exact in H3; [ | auto ]. apply extract_usize_exact in H4; [ | auto ].
    apply extract_1d_exact in H5; [ | auto ]. auto 10.
  - destruct m as [ s vs r k ]. cbn [csr_shape csr_indices csr_indptr csr_data]. intros (H1 & (H2 & H3 & H4) & H5). apply bind_ok. exists tt. split; [ now apply (expect_exact c a FCsr Ha) | ].
    apply bind_ok. exists s. split; [ now apply extract_shape_exact | ]. apply bind_ok. exists r. split; [ now apply extract_indices_exact | ]. apply bind_ok. exists k. split; [ now apply extract_usize_exact | ].
    apply bind_ok. exists vs. split; [ now apply extract_1d_exact | reflexivity ].
Qed.
Lemma read_csc c t a m : entries_ok c a -> csc_from_npz c t a = Ok m <-> represents c t a (Csc m).
Proof.
  intros Ha. unfold csc_from_npz, represents, compressed_in. cbn [format_of]. split.
  - intros H. apply bind_ok in H as (u & H1 & H). apply bind_ok in H as (s & H2 & H). apply bind_ok in H as (r & H3 & H). apply bind_ok in H as (k & H4 & H).
    apply bind_ok in H as (vs & H5 & H). destruct u. injection H as <-. cbn [csc_shape csc_indices csc_indptr csc_data].
    apply (expect_exact c a FCsc Ha) in H1. apply extract_shape_exact in H2; [ | auto ]. apply extract_indices_exact in H3; [ | auto ]. apply extract_usize_exact in H4; [ | auto ].
    apply extract_1d_exact in H5; [ | auto ]. auto 10.
  - destruct m as [ s vs r k ]. cbn [csc_shape csc_indices csc_indptr csc_data]. intros (H1 & (H2 & H3 & H4) & H5). apply bind_ok. exists tt. split; [ now apply (expect_exact c a FCsc Ha) | ].
    apply bind_ok. exists s. split; [ now apply extract_shape_exact | ]. apply bind_ok. exists r. split; [ now apply extract_indices_exact | ]. apply bind_ok. exists k. split; [ now apply extract_usize_exact | ].
    apply bind_ok. exists vs. split; [ now apply extract_1d_exact | reflexivity ].
Qed.
Lemma read_dia c t a m : entries_ok c a -> dia_from_npz c t a = Ok m <-> represents c t a (Dia m).
Proof.
  intros Ha. unfold dia_from_npz, represents. cbn [format_of]. split.
  - intros H. apply bind_ok in H as (u & H1 & H). apply bind_ok in H as (s & H2 & H). apply bind_ok in H as (r & H3 & H). apply bind_ok in H as ((vs, sh) & H4 & H).
    destruct u. injection H as <-. cbn [dia_shape dia_offsets dia_data fst].
    apply (expect_exact c a FDia Ha) in H1. apply extract_shape_exact in H2; [ | auto ]. apply extract_signed_exact in H3; [ | auto ].
    apply extract_nd_exact in H4 as (d & shape & H4 & Hn & _); [ | auto ]. apply two_axes in Hn as (n & k & ->). repeat (split; [ assumption | ]). eauto.
  - destruct m as [ s vs r ]. cbn [dia_shape dia_offsets dia_data]. intros (H1 & H2 & H3 & d & n & k & H4). apply bind_ok. exists tt. split; [ now apply (expect_exact c a FDia Ha) | ].
    apply bind_ok. exists s. split; [ now apply extract_shape_exact | ]. apply bind_ok. exists r. split; [ now apply extract_signed_exact | ].
    apply bind_ok. exists (vs, map (fun n => n mod (c_usize_max c + 1)) [n; k]). split; [ apply extract_nd_exact; [ auto | ]; exists d, [n; k]; auto | reflexivity ].
Qed.
Lemma read_bsr c t a m : entries_ok c a -> bsr_from_npz c t a = Ok m <-> represents c t a (Bsr m).
Proof.
  intros Ha. unfold bsr_from_npz, represents, compressed_in. cbn [format_of]. split.
  - intros H. apply bind_ok in H as (u & H1 & H). apply bind_ok in H as (s & H2 & H). apply bind_ok in H as (r & H3 & H). apply bind_ok in H as (k & H4 & H).
    apply bind_ok in H as ((vs, sh) & H5 & H). destruct u. cbn [fst snd] in H.
    apply extract_nd_exact in H5 as (d & shape & H5 & Hn & ->); [ | auto ]. apply three_axes in Hn as (n & b0 & b1 & ->). cbn [map] in H. injection H as <-.
    cbn [bsr_shape bsr_indices bsr_indptr bsr_data bsr_blocksize].
    apply (expect_exact c a FBsr Ha) in H1. apply extract_shape_exact in H2; [ | auto ]. apply extract_indices_exact in H3; [ | auto ]. apply extract_usize_exact in H4; [ | auto ].
    split; [ assumption | ]. split; [ auto | ]. exists d, n, b0, b1. auto.
  - destruct m as [ s bl vs r k ]. cbn [bsr_shape bsr_indices bsr_indptr bsr_data bsr_blocksize]. intros (H1 & (H2 & H3 & H4) & d & n & b0 & b1 & H5 & ->). apply bind_ok. exists tt.
    split; [ now apply (expect_exact c a FBsr Ha) | ].
    apply bind_ok. exists s. split; [ now apply extract_shape_exact | ]. apply bind_ok. exists r. split; [ now apply extract_indices_exact | ]. apply bind_ok. exists k. split; [ now apply extract_usize_exact | ].
    apply bind_ok. exists (vs, map (fun n => n mod (c_usize_max c + 1)) [n; b0; b1]). split; [ apply extract_nd_exact; [ auto | ]; exists d, [n; b0; b1]; auto | reflexivity ].
Qed.

Lemma typed_exact c t a f m : entries_ok c a -> read_as f c t a = Ok m <-> format_of m = f /\ represents c t a m.
Proof.
  intros Ha. destruct f; cbn [read_as]; rewrite bind_ok; split;
    first [ intros (x & H & [= <-]) | intros (Hf & H); destruct m as [ m | m | m | m | m ]; try discriminate; exists m; (split; [ | reflexivity ]) ];
    try (split; [ reflexivity | ]); first [ now apply read_coo | now apply read_csr | now apply read_csc | now apply read_dia | now apply read_bsr ].
Qed.
Lemma format_name_inj f g : format_name f = format_name g -> f = g.
Proof. destruct f, g; cbn; intros H; try reflexivity; discriminate. Qed.
Lemma dynamic_read c t a : sparse_from_npz c t a =
  let* b := the_format c a in
  match find (fun f => eqb_list b (format_name f)) [FCoo; FCsc; FCsr; FDia; FBsr] with
  | Some f => read_as f c t a
  | None => Err (EData (lit "bad format: " ++ show_format b))
  end.
Proof.
  unfold sparse_from_npz. destruct (the_format c a) as [ b | e | ]; cbn [bind find format_name]; try reflexivity.
  repeat match goal with |- (if ?x then _ else _) = _ => destruct x; [ reflexivity | ] end. reflexivity.
Qed.
Lemma find_format b f : find (fun f => eqb_list b (format_name f)) [FCoo; FCsc; FCsr; FDia; FBsr] = Some f <-> b = format_name f.
Proof.
  split.
  - intros H. apply find_some in H as (_ & H). now apply eqb_list_eq in H.
  - intros ->. destruct f; reflexivity.
Qed.
Lemma dynamic_exact c t a m : entries_ok c a -> sparse_from_npz c t a = Ok m <-> represents c t a m.
Proof.
  intros Ha. rewrite dynamic_read, bind_ok. split.
  - intros (b & Hb & H). destruct (find _ _) as [ f | ] eqn:E; [ | discriminate ]. apply typed_exact in H; tauto.
  - intros H. exists (format_name (format_of m)). pose proof H as (Hf & _). split; [ now apply format_exact | ].
    rewrite (proj2 (find_format _ (format_of m)) eq_refl). now apply typed_exact.
Qed.

(** * Panics *)
Definition part_panics (c : cfg) (a : archive) (p : part) : Prop := exists bs, entry a (part_name p) bs /\ file_panics c bs.
Fixpoint chain (c : cfg) (t : rty) (a : archive) (f : format) (l : list part) : Prop :=
  match l with [] => False | p :: l' => part_panics c a p \/ (part_ok c t a f p /\ chain c t a f l') end.
Lemma chain_split c t a f l : chain c t a f l <-> exists before p after, l = before ++ p :: after /\ Forall (part_ok c t a f) before /\ part_panics c a p.
Proof.
  induction l as [ | p l IH ]; cbn [chain].
  - split; [ contradiction | ]. intros (before & p & after & H & _). destruct before; discriminate.
  - rewrite IH. split.
    + intros [ H | (H & before & q & after & -> & Hf & Hq) ]; [ exists [], p, l; auto | ]. exists (p :: before), q, after. auto.
    + intros (before & q & after & H & Hf & Hq). destruct before as [ | b before ]; injection H as -> ->; [ auto | ]. right.
      apply Forall_cons_iff in Hf as (Hf & Hfs). split; [ auto | ]. exists before, q, after. auto.
Qed.
Lemma bind_panic_const {A B} (r : res A) (k : A -> res B) (P Q R : Prop) : (r = Panic <-> P) -> ((exists x, r = Ok x) <-> Q) -> (forall x, r = Ok x -> k x = Panic <-> R) ->
  bind r k = Panic <-> P \/ (Q /\ R).
Proof.
  intros HP HQ HR. rewrite bind_panic. split.
  - intros [ H | (x & Hx & H) ]; [ left; now apply HP | ]. right. split; [ apply HQ; eauto | now apply (HR x) ].
  - intros [ H | (H & Hr) ]; [ left; now apply HP | ]. right. apply HQ in H as (x & Hx). exists x. split; [ auto | now apply HR ].
Qed.
Lemma never_ok {A} (x : A) : Ok x = Panic <-> False.
Proof. split; [ discriminate | contradiction ]. Qed.

Lemma ok_format c t a f : entries_ok c a -> (exists u, expect_format c a (format_name f) = Ok u) <-> part_ok c t a f PFormat.
Proof. intros Ha. cbn [part_ok]. rewrite <- expect_exact by auto. split; [ intros (() & H); exact H | eauto ]. Qed.
Lemma ok_shape c t a f : entries_ok c a -> (exists s, extract_shape c a (lit "shape") = Ok s) <-> part_ok c t a f PShape.
Proof. intros Ha. cbn [part_ok]. split; intros (s & H); exists s; now apply extract_shape_exact. Qed.
Lemma ok_signed c t a f name : entries_ok c a -> (exists l, extract_signed_indices c a name = Ok l) <-> part_ok c t a f (PIntegers name).
Proof. intros Ha. cbn [part_ok]. split; intros (s & H); exists s; now apply extract_signed_exact. Qed.
Lemma ok_indices c t a f name : entries_ok c a -> (exists l, extract_indices c a name = Ok l) <-> part_ok c t a f (PIntegers name).
Proof.
  intros Ha. rewrite <- ok_signed by auto. rewrite extract_indices_signed. split; intros (l & H); [ | rewrite H; cbn [bind]; eauto ].
  apply bind_ok in H as (x & H & _). eauto.
Qed.
Lemma ok_usize c t a f name : entries_ok c a -> (exists l, extract_usize_indices c a name = Ok l) <-> part_ok c t a f (PIntegers name).
Proof.
  intros Ha. rewrite <- ok_indices by auto. unfold extract_usize_indices. split; intros (l & H); [ | rewrite H; cbn [bind]; eauto ].
  apply bind_ok in H as (x & H & _). eauto.
Qed.
Lemma ok_data1 c t a f : entries_ok c a -> (exists l, extract_1d c a t (lit "data") = Ok l) <-> part_ok c t a f (PData 1).
Proof.
  intros Ha. cbn [part_ok]. split.
  - intros (l & H). apply extract_1d_exact in H as (d & o & n & H); [ | auto ]. exists d, o, [n], l. split; [ auto | ]. split; [ reflexivity | congruence ].
  - intros (d & o & shape & vs & H & Hn & _). exists vs. apply extract_1d_exact; [ auto | ]. destruct shape as [ | n [ | ] ]; try discriminate. eauto.
Qed.
Lemma ok_datan c t a f k : entries_ok c a -> k <> 1%nat -> (exists l, extract_nd c a t (lit "data") (N.of_nat k) = Ok l) <-> part_ok c t a f (PData k).
Proof.
  intros Ha Hk. cbn [part_ok]. split.
  - intros ((vs, sh) & H). apply extract_nd_exact in H as (d & shape & H & Hn & _); [ | auto ]. exists d, OrderC, shape, vs. split; [ auto | ]. split; [ unfold lenN in Hn; lia | auto ].
  - intros (d & o & shape & vs & H & Hn & Ho). specialize (Ho Hk) as ->. exists (vs, map (fun n => n mod (c_usize_max c + 1)) shape). apply extract_nd_exact; [ auto | ].
    exists d, shape. split; [ auto | ]. split; [ unfold lenN; lia | reflexivity ].
Qed.

Lemma typed_panic c t a f : entries_ok c a -> read_as f c t a = Panic <-> panics_at c t a f.
Proof.
  intros Ha. unfold panics_at. fold (part_panics c a). rewrite <- (chain_split c t a f (parts f)).
  assert (Hm : forall (A : Type) (r : res A) (g : A -> sparse), (let* m := r in Ok (g m)) = Panic <-> r = Panic).
  { intros A r g. rewrite bind_panic. split; [ intros [ H | (x & _ & H) ]; [ auto | discriminate ] | auto ]. }
  assert (He : forall f' f'', lit f' = format_name f'' -> expect_format c a (lit f') = Panic <-> part_panics c a PFormat) by (intros f' f'' ->; apply (expect_panic c a _ Ha)).
  assert (Hf : forall f' f'', lit f' = format_name f'' -> (exists u, expect_format c a (lit f') = Ok u) <-> part_ok c t a f'' PFormat) by (intros f' f'' ->; apply (ok_format c t a _ Ha)).
  destruct f; cbn [read_as]; rewrite Hm; unfold coo_from_npz, csr_from_npz, csc_from_npz, dia_from_npz, bsr_from_npz; cbn [parts app chain].
  1: apply bind_panic_const; [ now apply (He _ FCoo) | now apply Hf | intros () _ ].
  2: apply bind_panic_const; [ now apply (He _ FCsr) | now apply Hf | intros () _ ].
  3: apply bind_panic_const; [ now apply (He _ FCsc) | now apply Hf | intros () _ ].
  4: apply bind_panic_const; [ now apply (He _ FDia) | now apply Hf | intros () _ ].
  5: apply bind_panic_const; [ now apply (He _ FBsr) | now apply Hf | intros () _ ].
  all: (apply bind_panic_const; [ apply (extract_shape_panic c a Ha) | apply (ok_shape c t a _ Ha) | intros s _ ]).
  1-3: (apply bind_panic_const; [ apply (extract_indices_panic c a _ Ha) | apply (ok_indices c t a _ _ Ha) | intros x _ ]).
  5: (apply bind_panic_const; [ apply (extract_indices_panic c a _ Ha) | apply (ok_indices c t a _ _ Ha) | intros x _ ]).
  4: (apply bind_panic_const; [ apply (extract_signed_panic c a _ Ha) | apply (ok_signed c t a _ _ Ha) | intros x _ ]).
  1: (apply bind_panic_const; [ apply (extract_indices_panic c a _ Ha) | apply (ok_indices c t a _ _ Ha) | intros y _ ]).
  2-3: (apply bind_panic_const; [ apply (extract_usize_panic c a _ Ha) | apply (ok_usize c t a _ _ Ha) | intros y _ ]).
  5: (apply bind_panic_const; [ apply (extract_usize_panic c a _ Ha) | apply (ok_usize c t a _ _ Ha) | intros y _ ]).
  1-3: (apply bind_panic_const; [ apply (extract_1d_panic c a _ _ Ha) | apply (ok_data1 c t a _ Ha) | intros z _; apply never_ok ]).
  - apply bind_panic_const; [ apply (extract_nd_panic c a _ _ _ Ha) | apply (ok_datan c t a _ 2%nat Ha ltac:(discriminate)) | intros z _; apply never_ok ].
  - apply bind_panic_const; [ apply (extract_nd_panic c a _ _ _ Ha) | apply (ok_datan c t a _ 3%nat Ha ltac:(discriminate)) | intros (vs, sh) Hz ].
    apply extract_nd_exact in Hz as (d & shape & _ & Hn & ->); [ | auto ]. apply three_axes in Hn as (n & b0 & b1 & ->). apply never_ok.
Qed.
Lemma dynamic_panic c t a : entries_ok c a -> sparse_from_npz c t a = Panic <-> exists f, panics_at c t a f.
Proof.
  intros Ha. rewrite dynamic_read, bind_panic. split.
  - intros [ H | (b & Hb & H) ].
    + exists FCoo. exists [], PFormat. eexists. split; [ reflexivity | ]. split; [ constructor | ]. now apply format_panic.
    + destruct (find _ _) as [ f | ] eqn:E; [ | discriminate ]. exists f. now apply typed_panic.
  - intros (f & H). pose proof H as (before & p & after & Hp & Hok & Hpan). unfold parts in Hp. destruct before as [ | q before ]; injection Hp as <- Hp.
    + left. now apply format_panic.
    + right. exists (format_name f). apply Forall_cons_iff in Hok as (Hok & _). split; [ now apply format_exact | ].
      rewrite (proj2 (find_format _ f) eq_refl). now apply typed_panic.
Qed.
