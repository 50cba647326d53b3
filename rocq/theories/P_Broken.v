(** Arrays and sparse matrices that cannot be read whole: proofs. *)
From Verif Require Import M_Base M_Text M_TypeStr M_PyLit M_IO M_Header M_Read M_Serialize M_DTypeErr M_NpyReader M_Write M_Npz M_Sparse.
From Verif Require Import S_Text S_TypeStr S_Python S_DType S_Shape S_Header S_Elem S_Dict S_Open S_Reader S_Write S_Npz S_Sparse S_Archive S_Defect S_Fault S_Reject S_Message S_Broken.
From Verif Require Import P_Base P_Text P_TypeStr P_IO P_Header P_Elem P_ElemT P_Sizes P_ReadOne P_Reader P_Array P_Open P_Npz P_Archive P_Defect P_Fault P_Reject P_Refuse P_Message T_Text.
Open Scope N_scope.

(** * Items *)
Lemma item_defect_exact c t d r input e : wf_dtype d -> strings_fit (c_usize_max c) d -> reader c t d = DOk r -> bytes_ok input ->
  fst (run (read_one c r) input) = Err e <-> item_defect t d input e.
Proof.
  intros Hw Hs Hr Hb. split.
  - pose proof (unreadable_sound c t d r input Hw Hr Hb) as H. destruct (run (read_one c r) input) as ([ v | e' | ], rest) eqn:E; cbn [fst]; try discriminate.
    intros [= ->]. destruct H as [ (-> & -> & Hl) | (bs & msg & -> & Hi & Hu) ].
    + right. apply (cut_exact c t d) in E as (_ & Hn); auto. split; [ auto | ]. split; [ | reflexivity ]. intros bs rest msg Hi Hu. apply Hn. eauto.
    + left. exists bs, rest, msg. auto.
  - intros [ (bs & rest & msg & Hi & Hu & ->) | (Hl & Hn & ->) ].
    + assert (E : run (read_one c r) input = (Err (EData msg), rest)) by (apply (unreadable_exact c t d); auto; [ discriminate | ]; eauto). now rewrite E.
    + assert (E : run (read_one c r) input = (Err EUnexpectedEof, [])). { apply (cut_exact c t d); auto. split; [ auto | ]. intros (bs & rest & msg & Hi & Hu). eapply Hn; eauto. }
      now rewrite E.
Qed.
Lemma item_value c t d r b v rest : wf_dtype d -> strings_fit (c_usize_max c) d -> reader c t d = DOk r -> bytes_ok b -> lenN b = size d -> decode t d b = Some v ->
  run (read_one c r) (b ++ rest) = (Ok v, rest).
Proof.
  intros Hw Hs Hr Hb Hl Hd. pose proof (reads_all c t d Hw r Hr b rest Hl Hb) as [ (Hp & _) | H ]; [ contradiction | ].
  rewrite Hd in H. exact H.
Qed.
Lemma items_defect_exact c t d r e : wf_dtype d -> strings_fit (c_usize_max c) d -> reader c t d = DOk r -> forall k input, bytes_ok input ->
  fst (run (rreplicate k (read_one c r)) input) = Err e <->
  exists blocks rest, input = List.concat blocks ++ rest /\ (List.length blocks < k)%nat
    /\ Forall (fun b => lenN b = size d /\ exists v, decode t d b = Some v) blocks /\ item_defect t d rest e.
Proof.
  intros Hw Hs Hr. induction k as [ | k IH ]; intros input Hb.
  - cbn [rreplicate run fst]. split; [ discriminate | ]. intros (? & ? & _ & H & _). lia.
  - rewrite run_rreplicate_S. split.
    + destruct (run (read_one c r) input) as ([ v | e' | ], rest) eqn:E; cbn [then_ fst].
      * intros H. destruct (reads_ok _ _ _ _ _ _ _ (reads_all c t d Hw r Hr) Hb E) as (b & -> & Hl & Hd).
        assert (Hb2 : bytes_ok rest) by (apply Forall_app in Hb; tauto). specialize (IH rest Hb2).
        destruct (run (rreplicate k (read_one c r)) rest) as ([ vs | e' | ], rest') eqn:E2; cbn [then_ fst] in *; try discriminate.
        injection H as ->. destruct (proj1 IH eq_refl) as (blocks & tail & -> & Hk & Hf & Hi).
        exists (b :: blocks), tail. cbn [List.concat List.length]. rewrite <- app_assoc. split; [ reflexivity | ]. split; [ lia | ]. split; [ | auto ]. constructor; eauto.
      * intros [= ->]. exists [], input. split; [ reflexivity | ]. split; [ cbn; lia | ]. split; [ constructor | ].
        apply (item_defect_exact c t d r); auto. now rewrite E.
      * discriminate.
    + intros (blocks & tail & Hi & Hk & Hf & Ht). destruct blocks as [ | b blocks ].
      * cbn [List.concat app] in Hi. subst tail. apply (item_defect_exact c t d r) in Ht; auto. destruct (run (read_one c r) input) as (x, rest). cbn [fst] in Ht. subst x. reflexivity.
      * cbn [List.concat List.length] in Hi, Hk. rewrite <- app_assoc in Hi. subst input. apply Forall_cons_iff in Hf as ((Hl & v & Hd) & Hf).
        apply Forall_app in Hb as (Hb1 & Hb2). rewrite (item_value c t d r b v _ Hw Hs Hr Hb1 Hl Hd). cbn [then_].
        assert (G : fst (run (rreplicate k (read_one c r)) (List.concat blocks ++ tail)) = Err e). { apply IH; [ auto | ]. exists blocks, tail. repeat split; auto. lia. }
        destruct (run (rreplicate k (read_one c r)) (List.concat blocks ++ tail)) as (x, rest). cbn [fst] in G. subst x. reflexivity.
Qed.

(** * Files *)
Lemma header_new c bs d shape o data : bytes_ok bs ->
  file_header c bs d shape o data <-> exists f cur, npy_new c {| cur_data := bs; cur_pos := 0 |} = (Ok f, cur)
    /\ h_dtype (nf_header f) = d /\ h_shape (nf_header f) = shape /\ h_order (nf_header f) = o /\ cur_rest (nf_src f) = data.
Proof.
  intros Hb. split.
  - intros (pre & txt & v & Hbs & Hp & Ht & Hs & Hnm & Hc). destruct (from_parts_numbers c d shape o Hnm Hc) as (h & Hfp & Hnum).
    assert (E : run (read_and_interpret c) bs = (Ok h, data)) by (apply open_exact; [ auto | ]; exists pre, txt, v, d, shape, o; auto 10).
    pose proof (new_run c bs) as Hnew. rewrite E in Hnew. cbv zeta in Hnew. eexists _, _. split; [ exact Hnew | ]. cbn [nf_header nf_src].
    pose proof Hnum as (N1 & N2 & N3 & _). rewrite (new_rest _ _ _ _ E). auto.
  - intros (f & cur & H & <- & <- & <- & <-). rewrite new_run in H. destruct (run (read_and_interpret c) bs) as ([ h | e | ], rest) eqn:E; try discriminate.
    apply pair_inj in H as (H & _). apply Ok_inj in H as <-. cbn [nf_header nf_src]. rewrite (new_rest _ _ _ _ E).
    apply open_exact in E as (pre & txt & v & d & shape & o & Hbs & Hp & Ht & Hs & Hnm & Hc & Hnum); [ | auto ].
    pose proof Hnum as (-> & -> & -> & _). exists pre, txt, v. auto 10.
Qed.
Lemma new_err c bs e : bytes_ok bs -> fst (npy_new c {| cur_data := bs; cur_pos := 0 |}) = Err e <-> file_defect c bs e.
Proof.
  intros Hb. rewrite <- file_defect_exact by exact Hb. rewrite new_run. destruct (run (read_and_interpret c) bs) as ([ h | e' | ], rest); cbn [fst]; split; intros H; congruence.
Qed.
Lemma opened_count c bs f cur : bytes_ok bs -> npy_new c {| cur_data := bs; cur_pos := 0 |} = (Ok f, cur) ->
  h_n_records (nf_header f) = count (h_shape (nf_header f)) mod 2 ^ 64.
Proof.
  intros Hb H. rewrite new_run in H. destruct (run (read_and_interpret c) bs) as ([ h | e | ], rest) eqn:E; try discriminate.
  apply pair_inj in H as (H & _). apply Ok_inj in H as <-. cbn [nf_header].
  apply open_exact in E as (pre & txt & v & d & shape & o & Hbs & Hp & Ht & Hs & Hnm & Hc & Hnum); [ | auto ].
  pose proof Hnum as (N1 & N2 & N3 & N4 & _). now rewrite N4, N2.
Qed.
Lemma contents_exact c t bs f cur e : bytes_ok bs -> npy_new c {| cur_data := bs; cur_pos := 0 |} = (Ok f, cur) ->
  strings_fit (c_usize_max c) (h_dtype (nf_header f)) ->
  fst (npy_into_vec c t f) = Err e <-> contents_defect c t (h_dtype (nf_header f)) (h_shape (nf_header f)) (cur_rest (nf_src f)) e.
Proof.
  intros Hb Hf Hs. set (src := {| cur_data := bs; cur_pos := 0 |}) in *. unfold contents_defect.
  destruct (npy_data c t f) as [ r | e' ] eqn:Er.
  - rewrite (into_vec_run c t f r Er). destruct (data_opened c t src f cur r Hb Hf Er) as (rd & (Hw & Hn & Hrd & Hsz) & ->). cbn [nr_type].
    assert (Hb' : bytes_ok (cur_rest (nf_src f))) by (apply cur_rest_ok; now rewrite (opened_data c src f cur Hf)).
    assert (Hnc : ~ exists msg, read_complaint (c_usize_max c) t (h_dtype (nf_header f)) msg).
    { rewrite (complaint_exists c t src f cur Hb Hf). intros Hx. apply Hx. eauto. }
    assert (Hacc : accepts (c_usize_max c) Reading t (h_dtype (nf_header f))) by (apply reader_accepts; eauto).
    pose proof (items_defect_exact c t _ rd e Hw Hs Hrd (N.to_nat (h_n_records (nf_header f))) _ Hb') as HI.
    assert (Hrun : fst (run_cursor (rreplicate (N.to_nat (h_n_records (nf_header f))) (read_one c rd)) (nf_src f)) = fst (run (rreplicate (N.to_nat (h_n_records (nf_header f))) (read_one c rd)) (cur_rest (nf_src f)))).
    { unfold run_cursor. destruct (run _ _). reflexivity. }
    rewrite Hrun, HI. unfold items_defect. rewrite <- (opened_count c bs f cur Hb Hf). split.
    + intros (blocks & rest & H1 & H2 & H3). right. split; [ now apply accepts_no_object in Hacc | ]. split; [ auto | ]. exists blocks, rest. split; [ auto | ]. split; [ unfold lenN; lia | auto ].
    + intros [ (msg & Hm & _) | (_ & _ & blocks & rest & H1 & H2 & H3) ]; [ elim Hnc; eauto | ]. exists blocks, rest. split; [ auto | ]. split; [ unfold lenN in H2; lia | auto ].
  - assert (E0 : fst (npy_into_vec c t f) = Err (EData (dterr_display e'))) by (unfold npy_into_vec; now rewrite Er). rewrite E0. split.
    + intros [= <-]. left. assert (Hx : exists msg, read_complaint (c_usize_max c) t (h_dtype (nf_header f)) msg).
      { apply (complaint_exists c t src f cur Hb Hf). intros (r & Hr). congruence. }
      destruct Hx as (msg & Hm). exists msg. split; [ auto | ]. pose proof (into_vec_complains c t src f cur msg Hb Hf Hm) as Hv. rewrite Hv in E0. cbn [fst] in E0. congruence.
    + intros [ (msg & Hm & ->) | (Ho & Hacc & _) ].
      * pose proof (into_vec_complains c t src f cur msg Hb Hf Hm) as Hv. rewrite Hv in E0. cbn [fst] in E0. congruence.
      * exfalso. apply reader_accepts in Hacc as (rd & Hrd). apply (data_rejects c t src f cur e' Hf) in Er as [ (Hob & _) | (_ & Hr) ]; [ contradiction | ].
        apply (reader_rejects c t) in Hr. congruence.
Qed.

Lemma array_defect_exact c t bs e : bytes_ok bs -> (forall d shape o data, file_header c bs d shape o data -> strings_fit (c_usize_max c) d) ->
  (let* f := fst (npy_new c {| cur_data := bs; cur_pos := 0 |}) in fst (npy_into_vec c t f)) = Err e <-> array_defect c t bs e.
Proof.
  intros Hb Hs. unfold array_defect. rewrite bind_err, new_err by auto. split.
  - intros [ H | (f & Hf & H) ]; [ auto | right ]. destruct (npy_new c _) as (x, cur) eqn:E. cbn [fst] in Hf. subst x.
    assert (Hh : file_header c bs (h_dtype (nf_header f)) (h_shape (nf_header f)) (h_order (nf_header f)) (cur_rest (nf_src f))) by (apply header_new; [ auto | ]; eauto 10).
    eexists _, _, _, _. split; [ exact Hh | ]. apply (contents_exact c t bs f cur); eauto.
  - intros [ H | (d & shape & o & data & Hh & H) ]; [ auto | right ]. pose proof (Hs _ _ _ _ Hh) as Hfit.
    apply header_new in Hh as (f & cur & Hf & <- & <- & <- & <-); [ | auto ].
    exists f. rewrite Hf. split; [ reflexivity | ]. apply (contents_exact c t bs f cur) in H; auto.
Qed.
Lemma array_defect_unique c t bs e e' : bytes_ok bs -> (forall d shape o data, file_header c bs d shape o data -> strings_fit (c_usize_max c) d) ->
  array_defect c t bs e -> array_defect c t bs e' -> e = e'.
Proof. intros Hb Hs H H'. apply array_defect_exact in H; auto. apply array_defect_exact in H'; auto. congruence. Qed.

(** * Entries *)
Lemma by_name_err c a name e : entries_ok c a -> by_name c a name = Err e <-> exists bs, entry a name bs /\ file_defect c bs e.
Proof.
  intros Ha. unfold by_name. destruct (zip_find (file_name_from_array_name name) a) as [ bs | ] eqn:E.
  - apply entry_find in E. pose proof (entry_ok _ _ _ _ Ha E) as Hb. pose proof (new_err c bs e Hb) as Hn. destruct (npy_new c _) as ([ f | e' | ], cur); cbn [fst bind] in *; split.
    + discriminate.
    + intros (bs' & He & H). rewrite (entry_fun _ _ _ _ He E) in H. now apply Hn in H.
    + intros [= ->]. exists bs. split; [ auto | ]. now apply Hn.
    + intros (bs' & He & H). rewrite (entry_fun _ _ _ _ He E) in H. apply Hn in H. congruence.
    + discriminate.
    + intros (bs' & He & H). rewrite (entry_fun _ _ _ _ He E) in H. now apply Hn in H.
  - split; [ discriminate | ]. intros (bs & He & _). apply entry_find in He. congruence.
Qed.
Lemma by_name_none c a name : by_name c a name = Ok None <-> forall bs, ~ entry a name bs.
Proof.
  unfold by_name. split.
  - intros H bs He. apply entry_find in He. rewrite He in H. destruct (fst (npy_new c _)); cbn [bind] in H; discriminate.
  - intros H. destruct (zip_find (file_name_from_array_name name) a) as [ bs | ] eqn:E; [ | reflexivity ]. apply entry_find in E. elim (H _ E).
Qed.
Lemma named_header c a name d shape o data : entries_ok c a ->
  (exists bs, entry a name bs /\ file_header c bs d shape o data) <->
  exists f, by_name c a name = Ok (Some f) /\ h_dtype (nf_header f) = d /\ h_shape (nf_header f) = shape /\ h_order (nf_header f) = o /\ cur_rest (nf_src f) = data.
Proof.
  intros Ha. split.
  - intros (bs & He & Hh). apply header_new in Hh as (f & cur & Hf & H); [ | exact (entry_ok _ _ _ _ Ha He) ]. exists f. split; [ | auto ]. apply by_name_inv. eauto.
  - intros (f & Hf & H). apply by_name_inv in Hf as (bs & cur & He & Hf). exists bs. split; [ auto | ]. apply header_new; [ exact (entry_ok _ _ _ _ Ha He) | eauto ].
Qed.
Lemma named_contents c t a name f e : entries_ok c a -> by_name c a name = Ok (Some f) ->
  fst (npy_into_vec c t f) = Err e <-> contents_defect c t (h_dtype (nf_header f)) (h_shape (nf_header f)) (cur_rest (nf_src f)) e.
Proof.
  intros Ha H. apply by_name_inv in H as (bs & cur & He & Hf). apply (contents_exact c t bs f cur); [ exact (entry_ok _ _ _ _ Ha He) | auto | ]. eapply new_fits; eauto.
Qed.

(** * Parts *)
(** What is wrong before the contents of a part are looked at. *)
Definition outer_defect (c : cfg) (a : archive) (name : text) (n : N) (e : err) : Prop :=
  ((forall bs, ~ entry a name bs) /\ e = EData (lit "missing array '" ++ name ++ lit "' from sparse array"))
  \/ (exists bs, entry a name bs /\ file_defect c bs e)
  \/ (exists bs d shape o data k m, entry a name bs /\ file_header c bs d shape o data /\ lenN shape <> n /\ shortest_numeral k (lenN shape) /\ shortest_numeral m n
      /\ e = EData (lit "invalid ndim for " ++ name ++ lit ": " ++ k ++ lit " (expected " ++ m ++ lit ")")).
Lemma ndim_err c a name n e : entries_ok c a -> extract_and_check_ndim c a name n = Err e <-> outer_defect c a name n e.
Proof.
  intros Ha. unfold extract_and_check_ndim, outer_defect. rewrite bind_err, by_name_err by auto. split.
  - intros [ H | (x & Hx & H) ]; [ auto | ]. destruct x as [ f | ].
    + destruct (_ =? n) eqn:En; [ discriminate | ]. injection H as <-. right. right.
      destruct (proj2 (named_header c a name _ _ _ _ Ha) (ex_intro _ f (conj Hx (conj eq_refl (conj eq_refl (conj eq_refl eq_refl)))))) as (bs & He & Hh).
      exists bs, (h_dtype (nf_header f)), (h_shape (nf_header f)), (h_order (nf_header f)), (cur_rest (nf_src f)), (dec (lenN (h_shape (nf_header f)))), (dec n).
      repeat (split; [ first [ assumption | lia | now apply decimal_exact ] | ]). reflexivity.
    + injection H as <-. left. split; [ exact (proj1 (by_name_none c a name) Hx) | reflexivity ].
  - intros [ (H & ->) | [ H | (bs & d & shape & o & data & k & m & He & Hh & Hn & Hk & Hm & ->) ] ]; [ | auto | ].
    + right. exists None. split; [ exact (proj2 (by_name_none c a name) H) | reflexivity ].
    + right. destruct (proj1 (named_header c a name d shape o data Ha) (ex_intro _ bs (conj He Hh))) as (f & Hf & _ & Hs & _). exists (Some f). split; [ auto | ].
      rewrite Hs. apply decimal_exact in Hk as ->, Hm as ->. destruct (N.eqb_spec (lenN shape) n); [ contradiction | reflexivity ].
Qed.
(** What is wrong with the contents. *)
Definition inner_defect (c : cfg) (t : rty) (a : archive) (p : part) (e : err) : Prop :=
  exists bs d shape o data, entry a (part_name p) bs /\ file_header c bs d shape o data /\ lenN shape = part_axes p /\
  match p with
  | PFormat => contents_defect c RVecU8 d shape data e
  | PData n => if n =? 1 then contents_defect c t d shape data e
               else match o with OrderC => contents_defect c t d shape data e
                    | OrderFortran => e = EData (lit "fortran order is not currently supported for array 'data' in sparse NPZ file") end
  | PShape | PIntegers _ =>
      (~ accepts (c_usize_max c) Reading (RInt true W4) d /\ ~ accepts (c_usize_max c) Reading (RInt true W8) d
        /\ exists w, dtype_shown d w /\ e = EData (lit "invalid dtype for '" ++ part_name p ++ lit "' in sparse matrix: " ++ w))
      \/ (exists i, (i = W4 \/ i = W8) /\ accepts (c_usize_max c) Reading (RInt true i) d /\ items_defect (RInt true i) d shape data e)
  end%nat.

Lemma part_defect_split c t a p e : part_defect c t a p e <->
  outer_defect c a (part_name p) (part_axes p) e \/ inner_defect c t a p e
  \/ (p = PShape /\ exists l k, integers_in c a (lit "shape") l /\ List.length l <> 2%nat /\ shortest_numeral k (lenN l)
      /\ e = EData (lit "invalid length for 'shape' (got " ++ k ++ lit ", expected 2)")).
Proof.
  split.
  - intros [ p' H | p' bs e' He H | p' bs d shape o data k n He Hh Hn Hk Hm | bs d o data e' He Hh H | n bs d shape data Hn He Hh Hl | n bs d shape o data e' Ho He Hh Hl H
           | p' bs d n o data w Hp He Hh H4 H8 Hw | p' bs d n o data i e' Hp He Hh Hi Ha H | l k Hl Hn Hk ].
    + left. left. auto.
    + left. right. left. eauto.
    + left. right. right. exists bs, d, shape, o, data, k, n. auto 10.
    + right. left. exists bs, d, [], o, data. auto.
    + right. left. exists bs, d, shape, OrderFortran, data. split; [ auto | ]. split; [ auto | ]. split; [ cbn [part_axes]; unfold lenN; now rewrite Hl | ].
      destruct (Nat.eqb_spec n 1); [ contradiction | reflexivity ].
    + right. left. exists bs, d, shape, o, data. split; [ auto | ]. split; [ auto | ]. split; [ cbn [part_axes]; unfold lenN; now rewrite Hl | ].
      destruct (Nat.eqb_spec n 1) as [ | Hne ]; [ auto | ]. rewrite (Ho Hne). auto.
    + right. left. exists bs, d, [n], o, data. split; [ auto | ]. split; [ auto | ]. destruct p'; try contradiction; (split; [ reflexivity | ]); left; eauto.
    + right. left. exists bs, d, [n], o, data. split; [ auto | ]. split; [ auto | ]. destruct p'; try contradiction; (split; [ reflexivity | ]); right; eauto.
    + right. right. split; [ auto | ]. eauto 10.
  - intros [ [ (H & ->) | [ (bs & He & H) | (bs & d & shape & o & data & k & m & He & Hh & Hn & Hk & Hm & ->) ] ] | [ (bs & d & shape & o & data & He & Hh & Hl & H) | (-> & l & k & Hl & Hn & Hk & ->) ] ].
    + now apply defect_missing.
    + eapply defect_unopened; eauto.
    + eapply defect_axes; eauto.
    + destruct p as [ | | name | n ]; cbn [part_name part_axes] in *.
      * assert (shape = []) as -> by (destruct shape; [ reflexivity | rewrite lenN_cons in Hl; lia ]). eapply defect_format; eauto.
      * apply one_axis in Hl as (n & ->). destruct H as [ (H4 & H8 & w & Hw & ->) | (i & Hi & Ha & H) ]; [ exact (defect_dtype c t a PShape bs d n o data w I He Hh H4 H8 Hw) | exact (defect_integers c t a PShape bs d n o data i e I He Hh Hi Ha H) ].
      * apply one_axis in Hl as (n & ->). destruct H as [ (H4 & H8 & w & Hw & ->) | (i & Hi & Ha & H) ]; [ exact (defect_dtype c t a (PIntegers name) bs d n o data w I He Hh H4 H8 Hw) | exact (defect_integers c t a (PIntegers name) bs d n o data i e I He Hh Hi Ha H) ].
      * unfold lenN in Hl. apply Nat2N.inj in Hl. destruct (Nat.eqb_spec n 1) as [ -> | Hne ].
        -- apply (defect_data c t a 1%nat bs d shape o data e); auto. congruence.
        -- destruct o; [ apply (defect_data c t a n bs d shape OrderC data e); auto | subst e; apply (defect_order c t a n bs d shape data); auto ].
    + eapply defect_length; eauto.
Qed.

(** The contents of a part that has been opened and has the right number of axes. *)
Lemma inner_of c t a p f e : entries_ok c a -> by_name c a (part_name p) = Ok (Some f) -> lenN (h_shape (nf_header f)) = part_axes p ->
  inner_defect c t a p e <->
  match p with
  | PFormat => fst (npy_into_vec c RVecU8 f) = Err e
  | PData n => if n =? 1 then fst (npy_into_vec c t f) = Err e
               else match h_order (nf_header f) with OrderC => fst (npy_into_vec c t f) = Err e
                    | OrderFortran => e = EData (lit "fortran order is not currently supported for array 'data' in sparse NPZ file") end
  | PShape | PIntegers _ =>
      (~ accepts (c_usize_max c) Reading (RInt true W4) (h_dtype (nf_header f)) /\ ~ accepts (c_usize_max c) Reading (RInt true W8) (h_dtype (nf_header f)) /\ e = invalid_index_dtype (part_name p) f)
      \/ (exists i, (i = W4 \/ i = W8) /\ accepts (c_usize_max c) Reading (RInt true i) (h_dtype (nf_header f)) /\ fst (npy_into_vec c (RInt true i) f) = Err e)
  end%nat.
Proof.
  intros Ha Hf Hl. pose proof Hf as Hf'. apply by_name_inv in Hf' as (bs & cur & He & Hnew). pose proof (entry_ok _ _ _ _ Ha He) as Hb.
  assert (Hh : file_header c bs (h_dtype (nf_header f)) (h_shape (nf_header f)) (h_order (nf_header f)) (cur_rest (nf_src f))) by (apply header_new; [ auto | ]; eauto 10).
  assert (Hw : wf_dtype (h_dtype (nf_header f))) by exact (proj1 (opened c {| cur_data := bs; cur_pos := 0 |} f cur Hb Hnew)).
  assert (Hu : forall bs' d shape o data, entry a (part_name p) bs' -> file_header c bs' d shape o data ->
    bs' = bs /\ d = h_dtype (nf_header f) /\ shape = h_shape (nf_header f) /\ o = h_order (nf_header f) /\ data = cur_rest (nf_src f)).
  { intros bs' d shape o data He' Hh'. pose proof (entry_fun _ _ _ _ He' He) as ->. apply header_new in Hh' as (f' & cur' & Hn' & H1 & H2 & H3 & H4); [ | auto ].
    rewrite Hnew in Hn'. apply pair_inj in Hn' as (Hn' & _). apply Ok_inj in Hn' as <-. auto. }
  assert (Hc : forall t' e', fst (npy_into_vec c t' f) = Err e' <-> contents_defect c t' (h_dtype (nf_header f)) (h_shape (nf_header f)) (cur_rest (nf_src f)) e') by (intros; eapply named_contents; eauto).
  assert (Hi : forall i e', accepts (c_usize_max c) Reading (RInt true i) (h_dtype (nf_header f)) ->
    fst (npy_into_vec c (RInt true i) f) = Err e' <-> items_defect (RInt true i) (h_dtype (nf_header f)) (h_shape (nf_header f)) (cur_rest (nf_src f)) e').
  { intros i e' Hacc. rewrite Hc. unfold contents_defect. split; [ | intros H; right; split; [ now apply accepts_no_object in Hacc | auto ] ].
    intros [ (msg & Hm & _) | (_ & _ & H) ]; [ | exact H ]. exfalso. destruct Hm as [ (Ho & _) | (_ & e0 & Hr & _) ]; [ now apply accepts_no_object in Hacc | ].
    apply reader_accepts in Hacc as (rd & Hrd). apply (reader_rejects c) in Hr. congruence. }
  unfold inner_defect. split.
  - intros (bs' & d & shape & o & data & He' & Hh' & Hl' & H). destruct (Hu _ _ _ _ _ He' Hh') as (-> & -> & -> & -> & ->).
    destruct p as [ | | name | n ].
    + now apply Hc.
    + destruct H as [ (H4 & H8 & w & Hs & ->) | (i & Hii & Hacc & H) ]; [ left | right; exists i; repeat split; auto; now apply Hi ].
      apply dtype_shown_exact in Hs as ->; [ | auto ]. auto.
    + destruct H as [ (H4 & H8 & w & Hs & ->) | (i & Hii & Hacc & H) ]; [ left | right; exists i; repeat split; auto; now apply Hi ].
      apply dtype_shown_exact in Hs as ->; [ | auto ]. auto.
    + destruct (Nat.eqb n 1); [ now apply Hc | ]. destruct (h_order (nf_header f)); [ now apply Hc | exact H ].
  - intros H. exists bs, (h_dtype (nf_header f)), (h_shape (nf_header f)), (h_order (nf_header f)), (cur_rest (nf_src f)).
    split; [ auto | ]. split; [ auto | ]. split; [ auto | ]. destruct p as [ | | name | n ].
    + now apply Hc.
    + destruct H as [ (H4 & H8 & ->) | (i & Hii & Hacc & H) ]; [ left | right; exists i; repeat split; auto; now apply Hi ].
      repeat split; auto. eexists. split; [ now apply dtype_shown_exact | reflexivity ].
    + destruct H as [ (H4 & H8 & ->) | (i & Hii & Hacc & H) ]; [ left | right; exists i; repeat split; auto; now apply Hi ].
      repeat split; auto. eexists. split; [ now apply dtype_shown_exact | reflexivity ].
    + destruct (Nat.eqb n 1); [ now apply Hc | ]. destruct (h_order (nf_header f)); [ now apply Hc | exact H ].
Qed.
(** A part is opened before its contents are looked at. *)
Lemma opened_first {A} c t a p (k : npy_file -> res A) e : entries_ok c a ->
  (forall f, by_name c a (part_name p) = Ok (Some f) -> lenN (h_shape (nf_header f)) = part_axes p -> k f = Err e <-> inner_defect c t a p e) ->
  bind (extract_and_check_ndim c a (part_name p) (part_axes p)) k = Err e <-> outer_defect c a (part_name p) (part_axes p) e \/ inner_defect c t a p e.
Proof.
  intros Ha Hk. rewrite bind_err, ndim_err by auto. split.
  - intros [ H | (f & Hf & H) ]; [ auto | right ]. apply ndim_ok in Hf as (Hf & Hn). now apply (Hk f).
  - intros [ H | H ]; [ auto | right ]. pose proof H as (bs & d & shape & o & data & He & Hh & Hl & _).
    destruct (proj1 (named_header c a (part_name p) d shape o data Ha) (ex_intro _ bs (conj He Hh))) as (f & Hf & _ & Hs & _). exists f. subst shape. split; [ now apply ndim_ok | ]. now apply Hk.
Qed.

Lemma no_length c t a p e : p <> PShape -> part_defect c t a p e <-> outer_defect c a (part_name p) (part_axes p) e \/ inner_defect c t a p e.
Proof. intros Hp. rewrite part_defect_split. split; [ intros [ H | [ H | (H & _) ] ]; [ auto | auto | contradiction ] | intros [ H | H ]; auto ]. Qed.

Lemma bind_ok_err {A B} (r : res A) (g : A -> B) e : (let* x := r in Ok (g x)) = Err e <-> r = Err e.
Proof. rewrite bind_err. split; [ intros [ H | (x & _ & H) ]; [ auto | discriminate ] | auto ]. Qed.
Lemma signed_err c t a p e : entries_ok c a -> of_integers p ->
  extract_signed_indices c a (part_name p) = Err e <-> outer_defect c a (part_name p) (part_axes p) e \/ inner_defect c t a p e.
Proof.
  intros Ha Hp. unfold extract_signed_indices. replace 1 with (part_axes p) by (destruct p; try contradiction; reflexivity).
  apply (opened_first c t a p _ e Ha). intros f Hf Hl. rewrite (inner_of c t a p f e Ha Hf Hl).
  enough (G : (match npy_try_data c i32_type f with
    | inl r => let* vs := collect_all c r in Ok (map int_of vs)
    | inr f => match npy_try_data c i64_type f with inl r => let* vs := collect_all c r in Ok (map int_of vs) | inr f => Err (invalid_index_dtype (part_name p) f) end end) = Err e <->
      (~ accepts (c_usize_max c) Reading (RInt true W4) (h_dtype (nf_header f)) /\ ~ accepts (c_usize_max c) Reading (RInt true W8) (h_dtype (nf_header f)) /\ e = invalid_index_dtype (part_name p) f)
      \/ (exists i, (i = W4 \/ i = W8) /\ accepts (c_usize_max c) Reading (RInt true i) (h_dtype (nf_header f)) /\ fst (npy_into_vec c (RInt true i) f) = Err e))
    by (destruct p; try contradiction; exact G).
  assert (Hok : forall i r, npy_try_data c (RInt true i) f = inl r -> accepts (c_usize_max c) Reading (RInt true i) (h_dtype (nf_header f))).
  { intros i r H. unfold npy_try_data in H. destruct (h_pickled (nf_header f)); [ discriminate | ]. destruct (reader c (RInt true i) (h_dtype (nf_header f))) eqn:E; [ | discriminate ]. apply reader_accepts. eauto. }
  assert (Hno : forall i f', npy_try_data c (RInt true i) f = inr f' -> f' = f /\ ~ accepts (c_usize_max c) Reading (RInt true i) (h_dtype (nf_header f))).
  { intros i f' H. apply (proj2 (try_data_spec c (RInt true i) f)) in H as (-> & e' & H). split; [ reflexivity | ]. intros Hacc.
    pose proof Hf as Hf'. apply by_name_inv in Hf' as (bs & cur & He & Hnew). apply (data_rejects c _ _ _ _ _ Hnew) in H as [ (Ho & _) | (_ & Hr) ]; [ now apply accepts_no_object in Hacc | ].
    apply reader_accepts in Hacc as (rd & Hrd). apply (reader_rejects c) in Hr. congruence. }
  destruct (npy_try_data c i32_type f) as [ r | f' ] eqn:E4.
  - pose proof (Hok W4 r E4) as A4. rewrite bind_ok_err, (try_data_collect _ _ _ _ E4). split.
    + intros H. right. exists W4. auto.
    + intros [ (H & _) | (i & [ -> | -> ] & Hacc & H) ]; [ contradiction | exact H | ]. exfalso.
      destruct (npy_try_data c i64_type f) as [ r8 | f8 ] eqn:E8; [ eauto using not_both | ]. apply (Hno W8) in E8 as (_ & E8). contradiction.
  - pose proof (Hno W4 f' E4) as (-> & A4). destruct (npy_try_data c i64_type f) as [ r | f' ] eqn:E8.
    + pose proof (Hok W8 r E8) as A8. rewrite bind_ok_err, (try_data_collect _ _ _ _ E8). split.
      * intros H. right. exists W8. auto.
      * intros [ (_ & H & _) | (i & [ -> | -> ] & Hacc & H) ]; [ contradiction | contradiction | exact H ].
    + pose proof (Hno W8 f' E8) as (-> & A8). split; [ intros [= <-]; left; auto | ].
      intros [ (_ & _ & ->) | (i & [ -> | -> ] & Hacc & _) ]; [ reflexivity | contradiction | contradiction ].
Qed.
Lemma err_signed c t a name e : entries_ok c a -> extract_signed_indices c a name = Err e <-> part_defect c t a (PIntegers name) e.
Proof. intros Ha. rewrite no_length by discriminate. exact (signed_err c t a (PIntegers name) e Ha I). Qed.
Lemma err_indices c t a name e : entries_ok c a -> extract_indices c a name = Err e <-> part_defect c t a (PIntegers name) e.
Proof. intros Ha. rewrite extract_indices_signed, bind_ok_err. now apply err_signed. Qed.
Lemma err_usize c t a name e : entries_ok c a -> extract_usize_indices c a name = Err e <-> part_defect c t a (PIntegers name) e.
Proof. intros Ha. unfold extract_usize_indices. rewrite bind_ok_err. now apply err_indices. Qed.
Lemma err_shape c t a e : entries_ok c a -> extract_shape c a (lit "shape") = Err e <-> part_defect c t a PShape e.
Proof.
  intros Ha. unfold extract_shape. rewrite bind_err, extract_indices_signed, bind_ok_err, part_defect_split.
  rewrite (signed_err c t a PShape e Ha I). split.
  - intros [ [ H | H ] | (l & Hl & H) ]; [ auto | auto | ]. right. right. split; [ reflexivity | ].
    apply bind_ok in Hl as (zs & Hz & [= <-]). apply extract_signed_exact in Hz; [ | auto ]. exists zs, (dec (lenN zs)).
    rewrite lenN_map in H. split; [ auto | ]. destruct zs as [ | x [ | y [ | z l ] ] ]; cbn [map] in H; try discriminate; injection H as <-;
      (split; [ discriminate | ]); (split; [ now apply decimal_exact | reflexivity ]).
  - intros [ H | [ H | (_ & l & k & Hl & Hn & Hk & ->) ] ]; [ auto | auto | ]. right. exists (map to_u64 l). split.
    + apply extract_signed_exact in Hl; [ | auto ]. change (part_name PShape) with (lit "shape"). rewrite Hl. reflexivity.
    + apply decimal_exact in Hk as ->. rewrite lenN_map. destruct l as [ | x [ | y [ | z l ] ] ]; cbn [map]; try reflexivity. elim Hn. reflexivity.
Qed.
Lemma err_data1 c t a e : entries_ok c a -> extract_1d c a t (lit "data") = Err e <-> part_defect c t a (PData 1) e.
Proof.
  intros Ha. rewrite no_length by discriminate. unfold extract_1d. apply (opened_first c t a (PData 1) _ e Ha). intros f Hf Hl. rewrite (inner_of c t a _ f e Ha Hf Hl). reflexivity.
Qed.
Lemma err_datan c t a k e : entries_ok c a -> k <> 1%nat -> extract_nd c a t (lit "data") (N.of_nat k) = Err e <-> part_defect c t a (PData k) e.
Proof.
  intros Ha Hk. rewrite no_length by discriminate. unfold extract_nd. apply (opened_first c t a (PData k) _ e Ha). intros f Hf Hl. rewrite (inner_of c t a _ f e Ha Hf Hl).
  destruct (Nat.eqb_spec k 1); [ contradiction | ]. destruct (h_order (nf_header f)); [ apply bind_ok_err | ]. split; [ intros [= <-]; reflexivity | intros ->; reflexivity ].
Qed.
Lemma err_format c t a e : entries_ok c a -> the_format c a = Err e <-> part_defect c t a PFormat e.
Proof.
  intros Ha. rewrite no_length by discriminate. rewrite <- (opened_first c t a PFormat (fun f => fst (npy_into_vec c RVecU8 f)) e Ha).
  2: { intros f Hf Hl. rewrite (inner_of c t a _ f e Ha Hf Hl). reflexivity. }
  unfold the_format, extract_scalar. cbn [part_name part_axes].
  destruct (extract_and_check_ndim c a (lit "format") 0) as [ f | e' | ]; cbn [bind]; [ | split; intros [= <-]; reflexivity | split; discriminate ].
  destruct (fst (npy_into_vec c RVecU8 f)) as [ [ | v l ] | e' | ]; cbn [bind]; [ split; discriminate | | split; intros [= <-]; reflexivity | split; discriminate ].
  destruct v; split; discriminate.
Qed.

(** * Formats *)
Lemma hex_pair_exact b w : b < 256 -> hex_pair b w <-> w = hex_byte b.
Proof.
  intros Hb. unfold hex_pair, hex_byte. assert (D : forall i x, (i < 16)%nat -> nth_error (lit "0123456789ABCDEF") i = Some x <-> x = hex_digit 65 (N.of_nat i)).
  { intros i x Hi. do 16 (destruct i as [ | i ]; [ cbv; split; intros H; congruence | ]). lia. }
  assert (L : forall i x, nth_error (lit "0123456789ABCDEF") i = Some x -> (i < 16)%nat) by (intros i x H; change 16%nat with (List.length (lit "0123456789ABCDEF")); apply (proj1 (nth_error_Some _ i)); congruence).
  split.
  - intros (hi & lo & x & y & -> & Hx & Hy & ->). pose proof (L _ _ Hx) as Hh. pose proof (L _ _ Hy) as Hl. apply D in Hx as ->; [ | auto ]. apply D in Hy as ->; [ | auto ].
    f_equal; [ | f_equal ]; f_equal; [ | rewrite N.add_comm, N.mul_comm, N.mod_add; [ rewrite N.mod_small; lia | lia ] ].
    rewrite N.mul_comm, N.div_add_l, N.div_small; lia.
  - intros ->. exists (N.to_nat (b / 16)), (N.to_nat (b mod 16)). exists (hex_digit 65 (b / 16)), (hex_digit 65 (b mod 16)).
    pose proof (N.mod_lt b 16 ltac:(lia)). assert (b / 16 < 16) by (apply N.div_lt_upper_bound; lia).
    rewrite !N2Nat.id. split; [ apply N.div_mod'; lia | ]. split; [ apply D; [ lia | now rewrite N2Nat.id ] | ]. split; [ apply D; [ lia | now rewrite N2Nat.id ] | reflexivity ].
Qed.
Lemma format_shown_exact b w : bytes_ok b -> format_shown b w <-> w = show_format b.
Proof.
  intros Hb. unfold format_shown, show_format.
  set (g := fun b => if (0x20 <=? b) && (b <=? 0x7f) then [b] else lit "\x" ++ hex_byte b).
  assert (G : forall x w, x < 256 -> byte_shown x w <-> w = g x).
  { intros x w' Hx. unfold g. split.
    - intros H. inversion H as [ y Hy | y w0 Hy Hw0 ]; subst; destruct ((0x20 <=? x) && (x <=? 0x7f)) eqn:E; try lia; try reflexivity. apply hex_pair_exact in Hw0 as ->; auto.
    - intros ->. destruct ((0x20 <=? x) && (x <=? 0x7f)) eqn:E; [ apply byte_plain; lia | ]. apply byte_escaped; [ lia | ]. now apply hex_pair_exact. }
  assert (H : forall ws, Forall2 byte_shown b ws <-> ws = map g b).
  { clear w. induction b as [ | x b IH ]; intros ws.
    - split; [ intros H; now inversion H | intros ->; constructor ].
    - apply Forall_cons_iff in Hb as (Hx & Hb). cbn [map]. split.
      + intros H. inversion H as [ | ? w0 ? ws' H1 H2 ]; subst. apply G in H1 as ->; [ | auto ]. apply IH in H2 as ->; auto.
      + intros ->. constructor; [ now apply G | now apply IH ]. }
  rewrite flat_map_concat_map. split; [ intros (ws & Hw & ->); apply H in Hw as ->; reflexivity | intros ->; exists (map g b); split; [ now apply H | reflexivity ] ].
Qed.
Lemma format_bytes c a b d o : entries_ok c a -> array_in c a (lit "format") RVecU8 d o [] [XBytes b] -> bytes_ok b.
Proof. intros Ha H. apply array_typed in H; [ | auto ]. apply Forall_inv in H. exact H. Qed.

Lemma expect_err c t a f e : entries_ok c a -> expect_format c a (format_name f) = Err e <-> part_defect c t a PFormat e \/ other_format c a f e.
Proof.
  intros Ha. unfold expect_format, other_format. rewrite bind_err, (err_format c t) by auto. split.
  - intros [ H | (b & Hb & H) ]; [ auto | right ]. destruct (eqb_list b (format_name f)) eqn:E; [ discriminate | ]. injection H as <-.
    apply format_exact in Hb as (d & o & Hb); [ | auto ]. exists b, (show_format b), d, o. split; [ auto | ].
    split; [ intros ->; assert (eqb_list (format_name f) (format_name f) = true) by (now apply eqb_list_eq); congruence | ].
    split; [ apply format_shown_exact; [ exact (format_bytes _ _ _ _ _ Ha Hb) | reflexivity ] | reflexivity ].
  - intros [ H | (b & w & d & o & Hb & Hn & Hw & ->) ]; [ auto | right ]. exists b. split; [ apply format_exact; eauto | ].
    apply format_shown_exact in Hw as ->; [ | exact (format_bytes _ _ _ _ _ Ha Hb) ].
    destruct (eqb_list b (format_name f)) eqn:E; [ apply eqb_list_eq in E; contradiction | reflexivity ].
Qed.

(** * Whole matrices *)
Fixpoint breaks (c : cfg) (t : rty) (a : archive) (f : format) (e : err) (l : list part) : Prop :=
  match l with [] => False | p :: l' => (part_defect c t a p e \/ (p = PFormat /\ other_format c a f e)) \/ (part_ok c t a f p /\ breaks c t a f e l') end.
Lemma breaks_split c t a f e l : breaks c t a f e l <-> exists before p after, l = before ++ p :: after /\ Forall (part_ok c t a f) before
  /\ (part_defect c t a p e \/ (p = PFormat /\ other_format c a f e)).
Proof.
  induction l as [ | p l IH ]; cbn [breaks].
  - split; [ contradiction | ]. intros (before & p & after & H & _). destruct before; discriminate.
  - rewrite IH. split.
    + intros [ H | (H & before & q & after & -> & Hf & Hq) ]; [ exists [], p, l; auto | ]. exists (p :: before), q, after. auto.
    + intros (before & q & after & H & Hf & Hq). destruct before as [ | b before ]; injection H as -> ->; [ auto | ]. right.
      apply Forall_cons_iff in Hf as (Hf & Hfs). split; [ auto | ]. exists before, q, after. auto.
Qed.
Lemma bind_err_const {A B} (r : res A) (k : A -> res B) e (P Q R : Prop) : (r = Err e <-> P) -> ((exists x, r = Ok x) <-> Q) -> (forall x, r = Ok x -> k x = Err e <-> R) ->
  bind r k = Err e <-> P \/ (Q /\ R).
Proof.
  intros HP HQ HR. rewrite bind_err. split.
  - intros [ H | (x & Hx & H) ]; [ left; now apply HP | ]. right. split; [ apply HQ; eauto | now apply (HR x) ].
  - intros [ H | (H & Hr) ]; [ left; now apply HP | ]. right. apply HQ in H as (x & Hx). exists x. split; [ auto | now apply HR ].
Qed.
Lemma never_err {A} (x : A) e : Ok x = Err e <-> False.
Proof. split; [ discriminate | contradiction ]. Qed.

Lemma broken_exact c t a f e : entries_ok c a -> read_as f c t a = Err e <-> broken c t a f e.
Proof.
  intros Ha. unfold broken. rewrite <- (breaks_split c t a f e (parts f)).
  assert (Hm : forall (A : Type) (r : res A) (g : A -> sparse), (let* m := r in Ok (g m)) = Err e <-> r = Err e) by (intros; apply bind_ok_err).
  assert (He : forall f' f'', lit f' = format_name f'' -> expect_format c a (lit f') = Err e <-> (part_defect c t a PFormat e \/ (PFormat = PFormat /\ other_format c a f'' e))).
  { intros f' f'' ->. rewrite (expect_err c t) by auto. tauto. }
  assert (Hf : forall f' f'', lit f' = format_name f'' -> (exists u, expect_format c a (lit f') = Ok u) <-> part_ok c t a f'' PFormat) by (intros f' f'' ->; apply (ok_format c t a _ Ha)).
  assert (Hp : forall P p (Q : Prop), p <> PFormat -> (P <-> part_defect c t a p e) -> P <-> (part_defect c t a p e \/ (p = PFormat /\ Q))) by (intros; tauto).
  destruct f; cbn [read_as]; rewrite Hm; unfold coo_from_npz, csr_from_npz, csc_from_npz, dia_from_npz, bsr_from_npz; cbn [parts app breaks].
  1: apply bind_err_const; [ now apply (He _ FCoo) | now apply Hf | intros () _ ].
  2: apply bind_err_const; [ now apply (He _ FCsr) | now apply Hf | intros () _ ].
  3: apply bind_err_const; [ now apply (He _ FCsc) | now apply Hf | intros () _ ].
  4: apply bind_err_const; [ now apply (He _ FDia) | now apply Hf | intros () _ ].
  5: apply bind_err_const; [ now apply (He _ FBsr) | now apply Hf | intros () _ ].
  all: (apply bind_err_const; [ apply Hp; [ discriminate | apply (err_shape c t a e Ha) ] | apply (ok_shape c t a _ Ha) | intros s _ ]).
  1-3: (apply bind_err_const; [ apply Hp; [ discriminate | apply (err_indices c t a _ e Ha) ] | apply (ok_indices c t a _ _ Ha) | intros x _ ]).
  5: (apply bind_err_const; [ apply Hp; [ discriminate | apply (err_indices c t a _ e Ha) ] | apply (ok_indices c t a _ _ Ha) | intros x _ ]).
  4: (apply bind_err_const; [ apply Hp; [ discriminate | apply (err_signed c t a _ e Ha) ] | apply (ok_signed c t a _ _ Ha) | intros x _ ]).
  1: (apply bind_err_const; [ apply Hp; [ discriminate | apply (err_indices c t a _ e Ha) ] | apply (ok_indices c t a _ _ Ha) | intros y _ ]).
  2-3: (apply bind_err_const; [ apply Hp; [ discriminate | apply (err_usize c t a _ e Ha) ] | apply (ok_usize c t a _ _ Ha) | intros y _ ]).
  5: (apply bind_err_const; [ apply Hp; [ discriminate | apply (err_usize c t a _ e Ha) ] | apply (ok_usize c t a _ _ Ha) | intros y _ ]).
  1-3: (apply bind_err_const; [ apply Hp; [ discriminate | apply (err_data1 c t a e Ha) ] | apply (ok_data1 c t a _ Ha) | intros z _; apply never_err ]).
  - apply bind_err_const; [ apply Hp; [ discriminate | apply (err_datan c t a 2%nat e Ha ltac:(discriminate)) ] | apply (ok_datan c t a _ 2%nat Ha ltac:(discriminate)) | intros z _; apply never_err ].
  - apply bind_err_const; [ apply Hp; [ discriminate | apply (err_datan c t a 3%nat e Ha ltac:(discriminate)) ] | apply (ok_datan c t a _ 3%nat Ha ltac:(discriminate)) | intros (vs, sh) Hz ].
    apply extract_nd_exact in Hz as (d & shape & _ & Hn & ->); [ | auto ]. apply three_axes in Hn as (n & b0 & b1 & ->). apply never_err.
Qed.
Lemma broken_any_exact c t a e : entries_ok c a -> sparse_from_npz c t a = Err e <-> broken_any c t a e.
Proof.
  intros Ha. rewrite dynamic_read, bind_err, (err_format c t) by auto. unfold broken_any. split.
  - intros [ H | (b & Hb & H) ]; [ auto | right ]. apply format_exact in Hb as (d & o & Hb); [ | auto ]. destruct (find _ _) as [ f | ] eqn:E.
    + apply find_format in E as ->. right. exists f. split; [ unfold format_in; eauto | now apply broken_exact ].
    + left. injection H as <-. exists b, (show_format b), d, o. split; [ auto | ]. split; [ intros f Hf; apply find_format in Hf; congruence | ].
      split; [ apply format_shown_exact; [ exact (format_bytes _ _ _ _ _ Ha Hb) | reflexivity ] | reflexivity ].
  - intros [ H | [ (b & w & d & o & Hb & Hn & Hw & ->) | (f & Hf & H) ] ]; [ auto | right .. ].
    + exists b. split; [ apply format_exact; eauto | ]. apply format_shown_exact in Hw as ->; [ | exact (format_bytes _ _ _ _ _ Ha Hb) ].
      destruct (find _ _) as [ f | ] eqn:E; [ apply find_format in E; elim (Hn _ E) | reflexivity ].
    + exists (format_name f). split; [ apply format_exact; auto | ]. rewrite (proj2 (find_format _ f) eq_refl). now apply broken_exact.
Qed.
(** Reading represents a matrix, has one thing to complain about, or panics. *)
Lemma broken_unique c t a f e e' : entries_ok c a -> broken c t a f e -> broken c t a f e' -> e = e'.
Proof. intros Ha H H'. apply broken_exact in H; [ | auto ]. apply broken_exact in H'; [ | auto ]. congruence. Qed.
Lemma broken_or c t a f : entries_ok c a -> (exists m, format_of m = f /\ represents c t a m) \/ (exists e, broken c t a f e) \/ panics_at c t a f.
Proof.
  intros Ha. destruct (read_as f c t a) as [ m | e | ] eqn:E.
  - left. exists m. now apply typed_exact.
  - right. left. exists e. now apply broken_exact.
  - right. right. now apply typed_panic.
Qed.
