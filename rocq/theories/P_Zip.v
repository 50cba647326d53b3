(** Proofs for C85. *)
From Verif Require Import M_Base M_Text M_TypeStr M_PyLit M_IO M_Header M_Read M_Serialize M_DTypeErr M_NpyReader M_Write M_Npz M_Sparse M_Zip.
From Verif Require Import S_Text S_TypeStr S_DType S_Shape S_Header S_Elem S_Open S_Npz S_Sparse S_Archive S_Defect S_Zip.
From Verif Require Import P_Base P_Text P_Header P_IO P_Codec P_Open P_Npz P_Archive P_Broken.
Open Scope N_scope.

Lemma zopen_exact a path x : zopen path a = Some x <-> last_entry a path x.
Proof.
  assert (HN : forall a, zopen path a = None <-> ~ In path (map fst a)).
  { clear. induction a as [ | (f, y) a IH ]; cbn [zopen map fst In]; [ tauto | ]. destruct (zopen path a) eqn:E.
    - split; [ discriminate | ]. intros H. assert (HI : ~ In path (map fst a)) by tauto. apply IH in HI. discriminate HI.
    - destruct (eqb_list f path) eqn:Ef.
      + apply eqb_list_eq in Ef as ->. split; [ discriminate | tauto ].
      + split; [ | reflexivity ]. intros _ [ -> | H ]; [ now rewrite eqb_list_refl in Ef | ]. now apply IH. }
  unfold last_entry. split.
  - induction a as [ | (f, b) a IH ]; cbn [zopen]; [ discriminate | ]. destruct (zopen path a) as [ y | ] eqn:E.
    + intros [= ->]. destruct (IH eq_refl) as (before & after & -> & H). exists ((f, b) :: before), after. auto.
    + destruct (eqb_list f path) eqn:Ef; [ | discriminate ]. intros [= ->]. apply eqb_list_eq in Ef as ->. exists [], a. split; [ reflexivity | ]. now apply HN.
  - intros (before & after & -> & H). apply HN in H. induction before as [ | (f, b) before IH ]; cbn [app zopen]; [ now rewrite H, eqb_list_refl | ]. now rewrite IH.
Qed.
Lemma zopen_none a path : zopen path a = None <-> ~ In path (map fst a).
Proof.
  induction a as [ | (f, y) a IH ]; cbn [zopen map fst In]; [ tauto | ]. destruct (zopen path a) eqn:E.
  - split; [ discriminate | ]. intros H. assert (HI : ~ In path (map fst a)) by tauto. apply IH in HI. discriminate HI.
  - destruct (eqb_list f path) eqn:Ef.
    + apply eqb_list_eq in Ef as ->. split; [ discriminate | tauto ].
    + split; [ | reflexivity ]. intros _ [ -> | H ]; [ now rewrite eqb_list_refl in Ef | ]. now apply IH.
Qed.
Lemma last_fun a path x y : last_entry a path x -> last_entry a path y -> x = y.
Proof. intros H H'. apply zopen_exact in H, H'. congruence. Qed.
(** One entry alone. *)
Lemma one_entry c name bs : (let* f := fst (npy_new c {| cur_data := bs; cur_pos := 0 |}) in Ok (Some f)) = by_name c [(file_name_from_array_name name, bs)] name.
Proof. unfold by_name. cbn [zip_find]. now rewrite eqb_list_refl. Qed.
Lemma entry_one bs name bs' : entry [(file_name_from_array_name name, bs)] name bs' <-> bs' = bs.
Proof.
  rewrite <- entry_find. cbn [zip_find]. rewrite eqb_list_refl. split; [ intros [= ->] | intros -> ]; reflexivity.
Qed.
Lemma z_none c a name : zby_name c a name = Ok None <-> ~ In (name ++ lit ".npy") (map fst a).
Proof.
  rewrite <- zopen_none. unfold zby_name, file_name_from_array_name. destruct (zopen _ a) as [ [ bs | [ e | s | s ] ] | ]; try (split; discriminate); [ | tauto ].
  destruct (fst (npy_new c _)); split; discriminate.
Qed.
Lemma z_some c a name f : zby_name c a name = Ok (Some f) <-> exists bs, last_entry a (name ++ lit ".npy") (inl bs) /\ fst (npy_new c {| cur_data := bs; cur_pos := 0 |}) = Ok f.
Proof.
  unfold zby_name, file_name_from_array_name. split.
  - destruct (zopen _ a) as [ [ bs | [ e | s | s ] ] | ] eqn:E; try discriminate. apply zopen_exact in E. intros H. exists bs. split; [ exact E | ].
    destruct (fst (npy_new c _)); try discriminate. apply Ok_inj in H. injection H as <-. reflexivity.
  - intros (bs & H & Hn). apply zopen_exact in H. rewrite H, Hn. reflexivity.
Qed.
Lemma z_read c a name t d o shape vs : readable_by c a name ->
  (exists f, zby_name c a name = Ok (Some f) /\ h_dtype (nf_header f) = d /\ h_order (nf_header f) = o /\ h_shape (nf_header f) = shape /\ fst (npy_into_vec c t f) = Ok vs)
  <-> exists bs, last_entry a (name ++ lit ".npy") (inl bs) /\ file_of c t bs d shape o vs.
Proof.
  intros Ha. split.
  - intros (f & H & Hd & Ho & Hs & Hv). apply z_some in H as (bs & He & Hn). exists bs. split; [ exact He | ]. destruct (npy_new c _) as (r, cur) eqn:En. cbn [fst] in Hn. subst r.
    destruct (Ha bs He) as (Hb & Hf). destruct (new_header c bs f cur Hb En) as (data & Hh). apply whole_file; [ rewrite <- Hd; eapply Hf; eauto | exact Hb | ]. exists f, cur. auto.
  - intros (bs & He & Hf). destruct (Ha bs He) as (Hb & Hst). assert (Hd : strings_fit (c_usize_max c) d) by (destruct Hf as (_ & _ & data & Hh & _); eapply Hst; eauto).
    apply whole_file in Hf as (f & cur & Hn & H1 & H2 & H3 & H4); [ | auto | auto ]. exists f. split; [ apply z_some; exists bs; rewrite Hn; auto | auto ].
Qed.
Lemma z_err c a name e : readable_by c a name ->
  zby_name c a name = Err e <-> (exists bs, last_entry a (name ++ lit ".npy") (inl bs) /\ file_defect c bs e) \/ exists z, last_entry a (name ++ lit ".npy") (inr z) /\ e = complaint z.
Proof.
  intros Ha. unfold zby_name. change (file_name_from_array_name name) with (name ++ lit ".npy"). destruct (zopen (name ++ lit ".npy") a) as [ [ bs | z ] | ] eqn:E.
  - apply zopen_exact in E. rewrite (one_entry c name bs), by_name_err by (constructor; [ exact (Ha bs E) | constructor ]). split.
    + intros (bs' & H & Hd). apply entry_one in H as ->. left. eauto.
    + intros [ (bs' & H & Hd) | (z & H & _) ]; [ | now apply (last_fun _ _ _ _ E) in H ]. apply (last_fun _ _ _ _ E) in H. injection H as <-. exists bs. split; [ now apply entry_one | auto ].
  - apply zopen_exact in E. split.
    + intros H. right. exists z. split; [ exact E | ]. destruct z; injection H as <-; reflexivity.
    + intros [ (bs' & H & Hd) | (z' & H & ->) ]; [ now apply (last_fun _ _ _ _ E) in H | ]. apply (last_fun _ _ _ _ E) in H. injection H as <-. destruct z; reflexivity.
  - split; [ discriminate | ]. intros [ (bs' & H & Hd) | (z' & H & ->) ]; apply zopen_exact in H; rewrite E in H; discriminate H.
Qed.
Lemma z_panic c a name : readable_by c a name ->
  zby_name c a name = Panic <-> exists bs, last_entry a (name ++ lit ".npy") (inl bs) /\ file_panics c bs.
Proof.
  intros Ha. unfold zby_name. change (file_name_from_array_name name) with (name ++ lit ".npy"). destruct (zopen (name ++ lit ".npy") a) as [ [ bs | z ] | ] eqn:E.
  - apply zopen_exact in E. rewrite (one_entry c name bs), by_name_panic by (constructor; [ exact (Ha bs E) | constructor ]). split.
    + intros (bs' & H & Hd). apply entry_one in H as ->. eauto.
    + intros (bs' & H & Hd). apply (last_fun _ _ _ _ E) in H. injection H as <-. exists bs. split; [ now apply entry_one | auto ].
  - apply zopen_exact in E. split; [ destruct z; discriminate | ]. intros (bs' & H & Hd). now apply (last_fun _ _ _ _ E) in H.
  - split; [ discriminate | ]. intros (bs' & H & Hd). apply zopen_exact in H. rewrite E in H. discriminate H.
Qed.
Lemma z_names a name : In name (zarray_names a) <-> exists path, In path (map fst a) /\ counts_as path name.
Proof.
  unfold zarray_names, array_names. rewrite filter_map_in. split; intros (path & H & E); exists path.
  - apply names_in in H. rewrite map_map in H. split; [ exact H | now apply name_exact ].
  - split; [ apply names_in; now rewrite map_map | now apply name_exact ].
Qed.
Lemma z_listed c a : Forall (fun e => ~ In 0 (fst e)) a -> NoDup (zarray_names a) /\ forall name, In name (zarray_names a) <-> zby_name c a name <> Ok None.
Proof.
  intros H0. assert (H0' : Forall (fun e : text * bytes => ~ In 0 (fst e)) (map (fun e : text * (bytes + zip_error) => (fst e, [])) a)).
  { apply Forall_map. eapply Forall_impl; [ | exact H0 ]. auto. }
  split; [ now apply array_names_nodup | ]. intros name. unfold zarray_names. rewrite array_names_in by exact H0'. rewrite map_map. cbn [fst]. rewrite (z_none c a name).
  change (file_name_from_array_name name) with (name ++ lit ".npy"). change (map (fun x : text * (bytes + zip_error) => fst x) a) with (map fst a). destruct (in_dec (list_eq_dec N.eq_dec) (name ++ lit ".npy") (map fst a)); tauto.
Qed.
(** Archives all of whose entries open are those of M_Npz. *)
Lemma z_plain c a name : zby_name c (map (fun e => (fst e, inl (snd e))) a) name = by_name c a name.
Proof.
  assert (HZ : zopen (file_name_from_array_name name) (map (fun e => (fst e, inl (snd e))) a) = option_map inl (zip_find (file_name_from_array_name name) a)).
  { induction a as [ | (f, bs) a IH ]; [ reflexivity | ]. cbn [map zopen zip_find fst snd]. rewrite IH. destruct (zip_find _ a); [ reflexivity | ]. cbn [option_map]. destruct (eqb_list f _); reflexivity. }
  unfold zby_name, by_name. rewrite HZ. destruct (zip_find _ a); reflexivity.
Qed.
