(** Proofs for C73. *)
From Verif Require Import M_Base M_Text M_TypeStr M_PyLit M_IO M_Header M_Read M_Serialize M_NpyReader M_Write M_Npz M_Sparse.
From Verif Require Import S_Text S_TypeStr S_DType S_Shape S_Header S_Elem S_Strings S_Reader S_Write S_DText S_File S_Outcome S_Npz S_Sparse S_SparseOut.
From Verif Require Import P_Base P_Text P_TypeStr P_PyLit P_Header P_IO P_Sink P_Shape P_WriteHeader P_Number P_Elem P_ReadOne P_WriteOne P_Codec P_Sizes P_Strings P_Parse P_Default P_ElemT P_Reader P_Array P_Writer P_WriteFile P_Session P_Whole P_Npz P_Sparse T_Text P_DText P_File P_Bytes P_Counted.
Require Import ZifyBool ZifyNat ZifyN.
Open Scope N_scope.

(** * One array, of any shape whose product is not a panic *)
Lemma begun_nd d o shape hdr props pad data : wf_dtype d -> top_level d -> header_of (dict_prefix d o ++ shape_items shape ++ lit "), }") hdr props pad ->
  finished_file d o (NDimensional shape) shape data (hdr ++ data).
Proof.
  intros Hw Ht Hh. exists (flat_map (fun n => dec n ++ lit ", ") shape), 0. split; [ constructor; apply listed_dec | ].
  apply (header_laid_out _ _ _ _ _ props pad); auto. change (repeatN 32 0) with (@nil N). rewrite app_nil_r. rewrite <- header_dict_bytes in Hh. exact Hh.
Qed.
Lemma keeps_extend_and_drop c t d o shape vs : wf_dtype d -> Forall (has_type t) vs -> keeps (extend_and_drop c t d o shape vs).
Proof.
  intros Hw Hv. unfold extend_and_drop. apply keeps_bind; [ now apply keeps_begin | ]. intros w s0 s0' _ s Hs. pose proof (keeps_extend c vs) as K.
  specialize (K ltac:(eapply Forall_impl; [ | exact Hv ]; intros v; apply has_type_clean) w s Hs). destruct (extend c vs w s) as ((r, w'), s'). cbn [snd] in K.
  pose proof (keeps_drop w' s' K) as K'. destruct (drop_writer w' s') as ([ [] | | ], s''); exact K'.
Qed.
Lemma fixed_exact c t d o shape vs payload n : wf_dtype d -> strings_fit (c_usize_max c) d -> top_level d -> accepts (c_usize_max c) Writing t d -> Forall (has_type t) vs ->
  lenN vs < 2 ^ 64 -> Forall (fun n => n < 2 ^ 64) shape -> product c shape = Ok n -> short_header d (NDimensional shape) -> encodings t d vs payload ->
  exists file, extend_and_drop c t d o shape vs empty_sink = (Ok tt, {| sk_data := file; sk_pos := lenN file; sk_fuel := None |})
  /\ finished_file d o (NDimensional shape) shape payload file /\ (no_overflow shape -> file_with d o shape file payload) /\ bytes_ok file.
Proof.
  intros Hw Hsf Ht Ha Hvs Hn H64 Hp Hs He. apply writer_accepts in Ha as (tw & Htw).
  assert (Hc : create_dict c d o (NDimensional shape) = Ok (dict_prefix d o ++ shape_items shape ++ lit "), }", Known n)) by (cbn [create_dict]; now rewrite Hp).
  assert (Hf : header_fits (dict_prefix d o ++ shape_items shape ++ lit "), }")).
  { apply short_fits. rewrite !lenN_app. change (lenN (lit "), }")) with 4. pose proof (shape_items_len shape H64). pose proof (dict_prefix_len d o). unfold short_header in Hs. lia. }
  destruct (begin_ok_intro c t d o _ false empty_sink _ _ tw Ht Hc Hf Htw eq_refl) as (w & hdr & Hb). pose proof Hb as Hb'.
  apply begin_ok_inv in Hb' as (_ & dict & pad & hdr' & props & info & tw' & Hc' & Hho & _ & Htw' & Hs1 & Ew). rewrite Hc in Hc'. apply Ok_inj, pair_inj in Hc' as (<- & <-).
  exists (hdr' ++ payload). assert (E : extend_and_drop c t d o shape vs empty_sink = (Ok tt, {| sk_data := hdr' ++ payload; sk_pos := lenN (hdr' ++ payload); sk_fuel := None |})).
  2: { split; [ exact E | ]. split; [ now apply (begun_nd _ _ _ _ props pad) | ]. split.
    2: { pose proof (keeps_extend_and_drop c t d o shape vs Hw Hvs empty_sink) as K. rewrite E in K. apply K. constructor. }
    intros Hno. apply opens_with; auto. intros c' rest. rewrite <- app_assoc. rewrite <- header_dict_bytes in Hho. apply (read_written_nd c' d o shape hdr' props pad); auto. }
  unfold extend_and_drop, sbind, begin_nd. rewrite Hb.
  assert (Hwr : writer c t d = DOk (w_writer w)) by (rewrite Ew; exact Htw'). assert (H0 : w_num_items w = 0) by (rewrite Ew; reflexivity).
  rewrite (extend_ok_intro c t d vs Hw Hsf Hvs w (put empty_sink hdr None) payload Hwr) by (rewrite ?H0; auto; lia).
  rewrite Hs1, put_put. set (s := put empty_sink (hdr' ++ payload) None).
  assert (E : drop_writer (with_count w (w_num_items w + lenN vs)) s = (Ok tt, s)).
  { unfold drop_writer, finish_. rewrite Ew. cbn [with_count w_shape_info w_num_items]. destruct (negb (n =? 0 + lenN vs)); [ reflexivity | ]. unfold sink_flush. now rewrite tick_none. }
  rewrite E. f_equal. assert (hdr' <> []) by (eapply header_nonempty; eauto). subst s. unfold put, empty_sink. cbn [sk_data sk_pos]. rewrite N.add_0_l.
  destruct (hdr' ++ payload) as [ | b l ] eqn:Eb; [ destruct hdr'; [ congruence | discriminate ] | ]. f_equal. unfold overwrite. rewrite dropN_all by apply N.le_0_l. now rewrite app_nil_r.
Qed.

(** * All arrays but the data *)
Definition parts (c : cfg) (t : rty) (d : dtype) (m : sparse) : list saved := removelast (layout c t d m).
Lemma parts_storable c c' t d m : wf_cfg c -> wf_cfg c' -> numbers_ok (c_usize_max c) m -> Forall (storable c c') (parts c t d m).
Proof.
  intros Hc Hc' (Hlen & Hm). assert (Hb : forall n, n <= c_usize_max c -> n < 2 ^ 64) by (intros n Hn; now apply (usize_below c)).
  assert (Hp : forall l, Forall (fun n => n <= c_usize_max c) l -> Forall u64_ok l) by (intros l H; eapply Forall_impl; [ | exact H ]; exact Hb).
  unfold parts. destruct m as [ m | m | m | m | m ]; cbn [layout removelast data_of] in *.
  - destruct Hm as (Hs & Hr & Hcl & L1 & L2). repeat (apply Forall_cons; [ | ]); auto using format_storable, shape_storable, u64_indices_storable.
  - destruct Hm as (Hs & Hr & Hcl & L1 & L2). repeat (apply Forall_cons; [ | ]); auto using format_storable, shape_storable, u64_indices_storable.
  - destruct Hm as (Hs & Hr & Hcl & L1 & L2). repeat (apply Forall_cons; [ | ]); auto using format_storable, shape_storable, u64_indices_storable.
  - destruct Hm as (Hs & Ho & L1). repeat (apply Forall_cons; [ | ]); auto using format_storable, shape_storable, index_storable.
  - destruct Hm as ((Hs & Hr & Hcl & L1 & L2) & _). repeat (apply Forall_cons; [ | ]); auto using format_storable, shape_storable, u64_indices_storable.
Qed.
Lemma save_all_fuel c l : forall z, Forall is_array l -> Forall (can_write c) l -> nz_fuel z = None -> exists z', save_all c l z = (Ok tt, z') /\ nz_fuel z' = None.
Proof.
  induction l as [ | x l IH ]; intros z Hl Hw Hf; cbn [save_all]; [ eauto | ]. apply Forall_cons_iff in Hl as (Hx & Hl). apply Forall_cons_iff in Hw as (Hwx & Hw).
  destruct (save_succeeds c x z Hx Hwx Hf) as (z1 & E & Hf1). unfold zbind. rewrite E. auto.
Qed.
Lemma save_all_app c l1 l2 z : save_all c (l1 ++ l2) z = (let% _u := save_all c l1 in save_all c l2) z.
Proof.
  revert z. induction l1 as [ | x l1 IH ]; intros z; [ reflexivity | ]. cbn [app save_all]. unfold zbind. destruct (save c x z) as ([ [] | | ], z1); try reflexivity. now rewrite IH.
Qed.
Lemma layout_split c t d m : layout c t d m = parts c t d m ++ [array (lit "data") t d (data_shape m) (data_of m)].
Proof. destruct m; reflexivity. Qed.
Lemma parts_written c t d m z : wf_cfg c -> numbers_ok (c_usize_max c) m -> nz_fuel z = None ->
  exists new, save_all c (parts c t d m) z = (Ok tt, {| nz_entries := nz_entries z ++ new; nz_fuel := None |}) /\ forall c', wf_cfg c' -> Forall2 (holds c') (parts c t d m) new.
Proof.
  intros Hc Hm Hf. pose proof (parts_storable c c t d m Hc Hc Hm) as Hst.
  assert (Ha : Forall is_array (parts c t d m)) by (eapply Forall_impl; [ | exact Hst ]; intros x Hx; apply Hx).
  destruct (save_all_fuel c (parts c t d m) z) as (z' & E & Hf'); auto. { eapply Forall_impl; [ | exact Hst ]; intros x Hx; apply Hx. }
  destruct (save_all_ok c _ z z' Ha E) as (new & Hn & HF). exists new. split; [ rewrite E; f_equal; destruct z'; cbn in *; now subst | ].
  intros c' Hc'. pose proof (parts_storable c c' t d m Hc Hc' Hm) as Hst'. clear - HF Hst'. induction HF as [ | x e l new He HF IH ]; [ constructor | ].
  apply Forall_cons_iff in Hst' as (Hx & Hl). constructor; [ | auto ]. eapply entry_holds; eauto.
Qed.

(** * What the assertions ask *)
Lemma mul_mod2 a b k M : M <> 0 -> ((a * b) mod M * k) mod M = (a * b * k) mod M.
Proof. intros H. now rewrite N.mul_mod_idemp_l. Qed.
Lemma bsr_demanded c t d m z : default_dtype c t = Some (Ok d) -> lenN (bsr_data m) <= c_usize_max c ->
  (demanded c (Bsr m) /\ bsr_write_npz c t m z = save_all c (layout c t d (Bsr m)) z)
  \/ (~ demanded c (Bsr m) /\ bsr_write_npz c t m z = (let% _u := save_all c (parts c t d (Bsr m)) in zret Panic) z).
Proof.
  intros Hd Hl. rewrite (bsr_save c t d) by auto. cbn [demanded]. unfold block_items, parts. cbn [layout removelast]. destruct (bsr_blocksize m) as (b0, b1). cbn [fst snd].
  unfold usize_mul. destruct (c_ovf_panics c).
  - destruct (N.leb_spec (lenN (bsr_indices m) * b0) (c_usize_max c)); cbn [bind]; [ | right; split; [ lia | reflexivity ] ].
    destruct (N.leb_spec (lenN (bsr_indices m) * b0 * b1) (c_usize_max c)); [ | right; split; [ lia | reflexivity ] ].
    destruct (N.eqb_spec (lenN (bsr_data m)) (lenN (bsr_indices m) * b0 * b1)); [ left; split; [ lia | reflexivity ] | right; split; [ lia | reflexivity ] ].
  - assert (E : (let* n := (if lenN (bsr_indices m) * b0 <=? c_usize_max c then Ok (lenN (bsr_indices m) * b0) else Ok ((lenN (bsr_indices m) * b0) mod (c_usize_max c + 1))) in
        if n * b1 <=? c_usize_max c then Ok (n * b1) else Ok ((n * b1) mod (c_usize_max c + 1))) = Ok ((lenN (bsr_indices m) * b0 * b1) mod (c_usize_max c + 1))).
    { assert (G : forall x, (if x <=? c_usize_max c then Ok x else Ok (x mod (c_usize_max c + 1))) = Ok (x mod (c_usize_max c + 1))).
      { intros x. destruct (N.leb_spec x (c_usize_max c)); [ | reflexivity ]. now rewrite N.mod_small by lia. }
      rewrite G. cbn [bind]. rewrite G. now rewrite mul_mod2 by lia. }
    rewrite E. destruct (N.eqb_spec (lenN (bsr_data m)) ((lenN (bsr_indices m) * b0 * b1) mod (c_usize_max c + 1))); [ left | right ]; split; auto.
Qed.
Lemma dia_demanded c t d m z : default_dtype c t = Some (Ok d) ->
  (demanded c (Dia m) /\ dia_write_npz c t m z = save_all c (layout c t d (Dia m)) z)
  \/ (~ demanded c (Dia m) /\ dia_write_npz c t m z = (let% _u := save_all c (parts c t d (Dia m)) in zret Panic) z).
Proof.
  intros Hd. rewrite (dia_save c t d) by auto. cbn [demanded]. unfold parts. cbn [layout removelast].
  destruct (N.eqb_spec (lenN (dia_offsets m)) 0) as [ E0 | H0 ]; cbn [orb]; [ right; split; [ tauto | reflexivity ] | ].
  destruct (N.eqb_spec (lenN (dia_data m) mod lenN (dia_offsets m)) 0) as [ E | E ]; cbn [negb]; [ left | right ]; (split; [ | reflexivity ]).
  - split; [ auto | now apply N.mod_divide ].
  - intros (_ & Hx). apply E. now apply N.mod_divide.
Qed.
Lemma sparse_demanded c t d m z : default_dtype c t = Some (Ok d) -> lenN (data_of m) <= c_usize_max c ->
  (demanded c m /\ sparse_write_npz c t m z = save_all c (layout c t d m) z)
  \/ (~ demanded c m /\ sparse_write_npz c t m z = (let% _u := save_all c (parts c t d m) in zret Panic) z).
Proof.
  intros Hd Hl. destruct m as [ m | m | m | m | m ]; cbn [sparse_write_npz].
  - left. split; [ exact I | now apply coo_save ].
  - left. split; [ exact I | now apply csr_save ].
  - left. split; [ exact I | now apply csc_save ].
  - now apply dia_demanded.
  - now apply bsr_demanded.
Qed.

(** * The data *)
Lemma data_product c m : wf_cfg c -> numbers_ok (c_usize_max c) m -> demanded c m -> exists n, product c (data_shape m) = Ok n.
Proof.
  intros Hc (Hl & Hm) Hd. assert (Hb : forall n, n <= c_usize_max c -> n < 2 ^ 64) by (intros n Hn; now apply (usize_below c)).
  destruct (c_ovf_panics c) eqn:Eo.
  - assert (G : fits 1 (data_shape m) -> exists n, product c (data_shape m) = Ok n) by (intros H; eexists; now apply product_from_fits). apply G. clear G.
    destruct m as [ m | m | m | m | m ]; cbn [data_shape fits data_of demanded] in *; rewrite ?N.mul_1_l.
    + auto.
    + auto.
    + auto.
    + destruct Hd as (H0 & k & Hk). rewrite Hk, N.div_mul in * by auto. assert (k <= k * lenN (dia_offsets m)) by nia. split; [ apply Hb; lia | ]. split; [ apply Hb; lia | exact I ].
    + rewrite Eo in Hd. unfold block_items in Hd. destruct Hm as ((_ & _ & _ & L & _) & _). destruct Hd as (D1 & D2 & D3). repeat split; apply Hb; auto.
  - eexists. now apply product_from_wrap.
Qed.
Lemma all_encodings c t d vs : wf_cfg c -> default_dtype c t = Some (Ok d) -> has_default (c_usize_max c) t -> Forall (has_type t) vs -> Forall units_ok vs ->
  exists payload, encodings t d vs payload.
Proof.
  intros Hc Hd Hh Hv Hu. destruct (default_ok c t Hc Hh) as (d' & Hd' & _ & _ & _ & He). rewrite Hd in Hd'. injection Hd' as <-.
  induction Hv as [ | v vs Hv Hvs IH ]; [ exists []; apply encodings_nil | ]. apply Forall_cons_iff in Hu as (H1 & H2). destruct (IH H2) as (p & Hp).
  destruct (He v Hv H1) as (b & Hb). exists (b ++ p). now apply encodings_cons.
Qed.
Lemma data_shape_u64 c m : wf_cfg c -> numbers_ok (c_usize_max c) m -> Forall (fun n => n < 2 ^ 64) (data_shape m) /\ lenN (data_shape m) <= 3.
Proof.
  intros Hc (Hl & Hm). assert (Hb : forall n, n <= c_usize_max c -> n < 2 ^ 64) by (intros n Hn; now apply (usize_below c)).
  destruct m as [ m | m | m | m | m ]; cbn [data_shape data_of] in *; (split; [ | cbn; lia ]).
  1-3: repeat constructor; auto.
  - destruct Hm as (_ & _ & L). repeat constructor; [ | auto ]. apply Hb. destruct (N.eq_dec (lenN (dia_offsets m)) 0) as [ -> | H0 ]; [ cbn; apply N.le_0_l || (destruct (lenN (dia_data m)); cbn; apply N.le_0_l) | ].
    transitivity (lenN (dia_data m)); [ | auto ]. apply N.div_le_upper_bound; [ auto | ]. nia.
  - destruct Hm as ((_ & _ & _ & L & _) & B0 & B1). repeat constructor; auto.
Qed.
Lemma data_written c t d m z : wf_cfg c -> numbers_ok (c_usize_max c) m -> data_writable c t d (data_of m) -> demanded c m -> nz_fuel z = None ->
  exists payload file, save c (array (lit "data") t d (data_shape m) (data_of m)) z = (Ok tt, {| nz_entries := nz_entries z ++ [(lit "data.npy", file)]; nz_fuel := None |})
  /\ encodings t d (data_of m) payload /\ finished_file d OrderC (NDimensional (data_shape m)) (data_shape m) payload file
  /\ (no_overflow (data_shape m) -> file_with d OrderC (data_shape m) file payload) /\ bytes_ok file.
Proof.
  intros Hc Hm (Hd & Hh & Ht & Hs & Hv & Hu) Hdem Hf. destruct (all_encodings c t d _ Hc Hd Hh Hv Hu) as (payload & He). destruct (data_product c m Hc Hm Hdem) as (n & Hn).
  destruct (data_shape_u64 c m Hc Hm) as (H64 & H3). pose proof (default_ok c t Hc Hh) as (d' & Hd' & Hwf & _ & Ha & _). rewrite Hd in Hd'. injection Hd' as <-.
  destruct (fixed_exact c t d OrderC (data_shape m) (data_of m) payload n) as (file & E & HF); auto.
  { eapply default_fits; eauto. } { apply (usize_below c); [ auto | apply Hm ]. } { unfold short_header. lia. }
  exists payload, file. split; [ | auto ]. unfold save, array. cbn [sv_name sv_ending sv_type sv_dtype sv_order sv_shape sv_vals]. erewrite array_none by eauto. reflexivity.
Qed.

Lemma sparse_exact c t d m z : wf_cfg c -> numbers_ok (c_usize_max c) m -> data_writable c t d (data_of m) -> nz_fuel z = None ->
  exists r new last, sparse_write_npz c t m z = (r, {| nz_entries := nz_entries z ++ new ++ last; nz_fuel := None |})
  /\ (forall c', wf_cfg c' -> Forall2 (holds c') (removelast (layout c t d m)) new) /\ data_outcome c t d m r last.
Proof.
  intros Hc Hm Hd Hf. destruct (parts_written c t d m z Hc Hm Hf) as (new & Ep & HF). destruct (sparse_demanded c t d m z (proj1 Hd) (proj1 Hm)) as [ (Hdem & ->) | (Hdem & ->) ].
  - rewrite layout_split, save_all_app. unfold zbind. rewrite Ep. cbn [save_all]. destruct (data_written c t d m _ Hc Hm Hd Hdem (eq_refl : nz_fuel {| nz_entries := nz_entries z ++ new; nz_fuel := None |} = None)) as (payload & file & E & He & Hfile & _).
    unfold zbind. rewrite E. cbn [nz_entries]. rewrite <- app_assoc. exists (Ok tt), new, [(lit "data.npy", file)]. split; [ reflexivity | ]. split; [ rewrite removelast_last; exact HF | econstructor; eauto ].
  - unfold zbind. rewrite Ep. exists Panic, new, []. rewrite app_nil_r. split; [ reflexivity | ]. split; [ exact HF | now constructor ].
Qed.

(** * After a panic *)
Lemma left_unreadable c c' t d t' m z z' : wf_cfg c -> wf_cfg c' -> numbers_ok (c_usize_max c) m -> data_writable c t d (data_of m) -> nz_fuel z = None ->
  ~ In (lit "data.npy") (map fst (nz_entries z)) -> sparse_write_npz c t m z = (Panic, z') ->
  sparse_from_npz c' t' (nz_entries z') = Err (EData (lit "missing array 'data' from sparse array")).
Proof.
  intros Hc Hc' Hm Hd Hf Hno H. destruct (sparse_exact c t d m z Hc Hm Hd Hf) as (r & new & last & E & HF & HO). rewrite H in E. apply pair_inj in E as (<- & ->). cbn [nz_entries].
  inversion HO as [ | Hdem ]. subst. rewrite app_nil_r. set (A := nz_entries z ++ new). specialize (HF c' Hc').
  assert (ND : NoDup (map sv_name (parts c t d m))).
  { pose proof (layout_names c t d m) as HN. rewrite layout_split, map_app in HN. apply NoDup_remove_1 in HN. now rewrite app_nil_r in HN. }
  assert (HA : forall x, In x (parts c t d m) -> found_array c' A x) by (intros x; apply holds_found; auto).
  assert (Hmiss : by_name c' A (lit "data") = Ok None).
  { unfold by_name. replace (zip_find (file_name_from_array_name (lit "data")) A) with (@None bytes); [ reflexivity | ]. symmetry. apply find_none. unfold A. rewrite map_app, in_app_iff. intros [ Hi | Hi ]; [ now apply Hno | ].
    assert (Hnm : map fst new = map (fun x => sv_name x ++ lit ".npy") (parts c t d m)).
    { clear - HF. fold (parts c t d m) in HF. induction HF as [ | y e l new (E & _) HF IH ]; [ reflexivity | ]. cbn [map]. now rewrite E, IH. }
    rewrite Hnm in Hi. revert Hi. unfold parts. destruct m; cbn [layout removelast map In]; rewrite ?index_name; cbn [format_array shape_array array sv_name]; intros Hi; intuition discriminate. }
  assert (HE : forall n, extract_and_check_ndim c' A (lit "data") n = Err (EData (lit "missing array 'data' from sparse array"))) by (intros n; unfold extract_and_check_ndim; rewrite Hmiss; reflexivity).
  assert (Hfm : the_format c' A = Ok (format_name (format_of m))).
  { apply read_format. apply (HA (format_array (format_of m))). destruct m; now left. }
  assert (Hex : expect_format c' A (format_name (format_of m)) = Ok tt) by (unfold expect_format; rewrite Hfm; cbn [bind]; now rewrite eqb_list_refl).
  clearbody A. unfold sparse_from_npz. rewrite Hfm. cbn [bind]. destruct Hm as (Hlen & Hm). unfold parts in HA. destruct m as [ m | m | m | m | m ]; cbn [format_of format_name layout removelast demanded] in *; try tauto.
  - destruct Hm as (Hs & Ho & _). change (eqb_list (lit "dia") (lit "dia")) with true. change (eqb_list (lit "dia") _) with false. cbn [orb]. cbv iota. 
    unfold dia_from_npz. rewrite Hex. cbn [bind]. rewrite (read_shape c' c A (dia_shape m)) by (auto; apply HA; cbn; auto). cbn [bind].
    rewrite (proj1 (read_signed c' c A (lit "offsets") (dia_offsets m) ltac:(apply HA; cbn; auto))). cbn [bind]. unfold extract_nd. rewrite HE. reflexivity.
  - destruct Hm as ((Hs & Hr & Hp & _) & _).
    assert (Hp' : Forall u64_ok (bsr_indptr m)) by (eapply Forall_impl; [ | exact Hp ]; intros n Hn; now apply (usize_below c)).
    change (eqb_list (lit "bsr") (lit "bsr")) with true. cbv iota.
    unfold bsr_from_npz. rewrite Hex. cbn [bind]. rewrite (read_shape c' c A (bsr_shape m)) by (auto; apply HA; cbn; auto). cbn [bind].
    rewrite (read_u64 c' c A (lit "indices") (bsr_indices m)) by (auto; apply HA; cbn; auto). cbn [bind].
    unfold extract_usize_indices. rewrite (read_u64 c' c A (lit "indptr") (bsr_indptr m)) by (auto; apply HA; cbn; auto). cbn [bind]. unfold extract_nd. rewrite HE. reflexivity.
Qed.

(** * Too few items *)
Lemma encodings_len m t d vs : accepts m Writing t d -> Forall (has_type t) vs -> forall payload, encodings t d vs payload -> lenN payload = lenN vs * size d.
Proof.
  intros Ha Hv. induction Hv as [ | v vs Hv Hvs IH ]; intros payload H.
  - destruct H as (bl & H & ->). inversion H. reflexivity.
  - apply encodings_inv in H as (b & bs & E & Hb & ->). rewrite lenN_app, lenN_cons, (IH bs Hb). destruct (encode_len t _ _ _ _ Ha Hv E) as (-> & _). lia.
Qed.
Lemma wrapped_unreadable c c' t d t' m z z' r : wf_cfg c -> wf_cfg c' -> numbers_ok (c_usize_max c) (Bsr m) -> data_writable c t d (bsr_data m) -> nz_fuel z = None -> 0 < size d ->
  ~ has_object d -> sizes_fit (c_usize_max c') d -> strings_fit (c_usize_max c') d -> no_overflow (data_shape (Bsr m)) -> lenN (bsr_data m) <> block_items m ->
  bsr_write_npz c t m z = (Ok tt, z') -> sparse_from_npz c' t' (nz_entries z') <> Ok r.
Proof.
  intros Hc Hc' Hm Hd Hf Hz Hob Hsz Hst Hno Hne H Hr.
  destruct (parts_written c t d (Bsr m) z Hc Hm Hf) as (new & Ep & HF). destruct (bsr_demanded c t d m z (proj1 Hd) (proj1 Hm)) as [ (Hdem & E) | (Hdem & E) ]; rewrite E in H; clear E.
  2: { unfold zbind in H. rewrite Ep in H. discriminate H. }
  rewrite layout_split, save_all_app in H. unfold zbind in H. rewrite Ep in H. cbn [save_all] in H.
  destruct (data_written c t d (Bsr m) _ Hc Hm Hd Hdem (eq_refl : nz_fuel {| nz_entries := nz_entries z ++ new; nz_fuel := None |} = None)) as (payload & file & E & He & _ & Hfile & Hbo).
  unfold zbind in H. rewrite E in H. apply pair_inj in H as (_ & <-). cbn [nz_entries] in Hr. specialize (Hfile Hno). specialize (HF c' Hc').
  assert (Hlt : lenN (bsr_data m) < block_items m).
  { cbn [demanded] in Hdem. destruct (c_ovf_panics c); [ tauto | ]. assert (block_items m mod (c_usize_max c + 1) <= block_items m) by (apply N.mod_le; lia). lia. }
  destruct Hd as (Hdd & Hh & _ & _ & Hv & _). cbn [data_of] in *. destruct (default_ok c t Hc Hh) as (d' & Hd' & _ & _ & Ha & _). rewrite Hdd in Hd'. injection Hd' as <-.
  pose proof (encodings_len _ _ _ _ (Ha Writing) Hv _ He) as Hlen.
  assert (Hshort : lenN payload < count (data_shape (Bsr m)) * size d).
  { replace (count (data_shape (Bsr m))) with (block_items m); [ nia | ]. unfold block_items, data_shape, count. cbn [fold_right]. lia. }
  set (A := (nz_entries z ++ new) ++ [(lit "data.npy", file)]) in *.
  assert (Hfind : zip_find (file_name_from_array_name (lit "data")) A = Some file) by (unfold A; rewrite find_app; reflexivity).
  assert (Hfm : the_format c' A = Ok (lit "bsr")).
  { apply (read_format c' A FBsr). change (found_array c' A (format_array FBsr)).
    assert (HF2 : Forall2 (holds c') (parts c t d (Bsr m)) new) by exact HF. unfold A. rewrite <- app_assoc.
    unfold parts in HF2. cbn [layout removelast] in HF2.
    pose proof (layout_names c t d (Bsr m)) as ND. rewrite layout_split, map_app in ND. apply NoDup_remove_1 in ND. rewrite app_nil_r in ND.
    pose proof (holds_found c' _ new (nz_entries z) (format_array FBsr) HF ND ltac:(now left)) as (nf & Hn & Hrest). exists nf. split; [ | exact Hrest ].
    revert Hn. unfold by_name. rewrite (app_assoc (nz_entries z)), (find_app _ (nz_entries z ++ new)). exact (fun x => x). }
  unfold sparse_from_npz in Hr. rewrite Hfm in Hr. cbn [bind] in Hr. change (eqb_list (lit "bsr") (lit "bsr")) with true in Hr. cbv iota in Hr.
  apply bind_ok in Hr as (m' & Hr & _). unfold bsr_from_npz in Hr. apply bind_ok in Hr as (? & _ & Hr). apply bind_ok in Hr as (? & _ & Hr). apply bind_ok in Hr as (? & _ & Hr).
  apply bind_ok in Hr as (? & _ & Hr). apply bind_ok in Hr as (ds & Hx & _). unfold extract_nd in Hx. apply bind_ok in Hx as (f & Hx & Hi).
  unfold extract_and_check_ndim, by_name in Hx. rewrite Hfind in Hx. destruct (npy_new c' {| cur_data := file; cur_pos := 0 |}) as (rf, src') eqn:En. cbn [fst bind] in Hx.
  destruct rf as [ f' | | ]; cbn [bind] in Hx; try discriminate Hx. destruct (_ =? 3); [ | discriminate Hx ]. apply Ok_inj in Hx. subst f'.
  destruct (h_order (nf_header f)); [ | discriminate Hi ]. apply bind_ok in Hi as (vs & Hi & _).
  eapply short_file; [ exact Hbo | exact Hfile | | exact Hst | exact Hshort | exact En | exact Hi ].
  exists (size d). apply num_bytes_exact. auto.
Qed.

(** * The documented panics *)
Lemma documented_panics c t d m z : wf_cfg c -> numbers_ok (c_usize_max c) m -> data_writable c t d (data_of m) -> nz_fuel z = None ->
  (c_ovf_panics c = true \/ match m with Bsr b => block_items b <= c_usize_max c | _ => True end) -> ~ documented m -> exists z', sparse_write_npz c t m z = (Panic, z').
Proof.
  intros Hc Hm Hd Hf Ho Hn. destruct (sparse_exact c t d m z Hc Hm Hd Hf) as (r & new & last & E & _ & HO). destruct HO as [ payload file Hdem | ]; [ | eauto ].
  elim Hn. destruct m as [ m | m | m | m | m ]; cbn [demanded documented] in *; auto; [ tauto | ]. destruct (c_ovf_panics c); [ tauto | ]. destruct Ho as [ | Ho ]; [ discriminate | ]. rewrite N.mod_small in Hdem by lia. exact Hdem.
Qed.
