(** Sparse matrices: writing is saving the layout, reading finds it. *)
From Verif Require Import M_Base M_Text M_TypeStr M_PyLit M_IO M_Header M_Read M_Serialize M_NpyReader M_Write M_Npz M_Sparse.
From Verif Require Import S_TypeStr S_DType S_Shape S_Header S_Elem S_Strings S_Reader S_Write S_Npz S_Sparse
  P_Base P_Text P_TypeStr P_PyLit P_Header P_IO P_Sink P_Shape P_WriteHeader P_Number P_Elem P_ReadOne P_WriteOne P_Codec P_Sizes P_Strings P_Parse P_Default P_ElemT P_Reader P_Array P_Writer P_WriteFile P_Session P_Whole P_Npz.
Open Scope N_scope.

(** * Writing is saving the layout *)
Lemma default_i32 c : default_dtype c i32_type = Some (Ok (native_int c 4)).
Proof. destruct c as [ [ | ] um op ]; reflexivity. Qed.
Lemma default_i64 c : default_dtype c i64_type = Some (Ok (native_int c 8)).
Proof. destruct c as [ [ | ] um op ]; reflexivity. Qed.
Lemma extremes l : forall a b, let r := fold_left (fun b x => (Z.min (fst b) x, Z.max (snd b) x)) l (a, b) in
  ((- 2 ^ 31 <= a -> b <= 2 ^ 31 - 1 -> ((- 2 ^ 31 <=? fst r) && (snd r <=? 2 ^ 31 - 1))%Z = forallb fits_i32 l)
  /\ (a < - 2 ^ 31 \/ 2 ^ 31 - 1 < b -> ((- 2 ^ 31 <=? fst r) && (snd r <=? 2 ^ 31 - 1))%Z = false))%Z.
Proof.
  induction l as [ | x l IH ]; intros a b; cbn [fold_left forallb fst snd].
  - split; intros; lia.
  - specialize (IH (Z.min a x) (Z.max b x)). cbn [fst snd] in IH. destruct IH as (IH1 & IH2). split; intros H.
    + intros H'. destruct (fits_i32 x) eqn:E; unfold fits_i32 in E; cbn [andb].
      * apply IH1; lia.
      * apply IH2. lia.
    + apply IH2. lia.
Qed.
Lemma as_i32_id z : fits_i32 z = true -> as_i32 z = z.
Proof. unfold fits_i32, as_i32. intros H. assert (H' : (- 2 ^ 31 <= z < 2 ^ 31)%Z) by lia. rewrite Z.mod_small by lia. lia. Qed.
Lemma write_indices_save c name l : write_indices c name l = save c (index_array c name l).
Proof.
  unfold write_indices. destruct (most_negative_and_positive l) as (mn, mx) eqn:E.
  assert (Hf : ((- 2 ^ 31 <=? mn) && (mx <=? 2 ^ 31 - 1))%Z = forallb fits_i32 l).
  { pose proof (extremes l 0 0) as (H & _). unfold most_negative_and_positive in E. rewrite E in H. apply H; lia. }
  rewrite Hf. unfold index_array, with_default. rewrite default_i32, default_i64. destruct (forallb fits_i32 l) eqn:Ef; unfold save, array; cbn [sv_name sv_ending sv_type sv_dtype sv_order sv_shape sv_vals].
  - replace (map (fun z => XInt (as_i32 z)) l) with (map XInt l); [ reflexivity | ]. apply map_ext_in. intros z Hz. rewrite as_i32_id; [ reflexivity | ].
    rewrite forallb_forall in Ef. auto.
  - reflexivity.
Qed.
Lemma write_format_save c f : write_format c (format_name f) = save c (format_array f).
Proof. reflexivity. Qed.
Lemma write_shape_save c s : write_shape c s = save c (shape_array c s).
Proof. unfold write_shape, with_default. rewrite default_i64. reflexivity. Qed.
Lemma write_data_save c t d vs shape : default_dtype c t = Some (Ok d) -> write_data c t vs shape = save c (array (lit "data") t d shape vs).
Proof. intros H. unfold write_data, with_default. rewrite H. reflexivity. Qed.
Lemma zbind_unit (p : npz_writer -> res unit * npz_writer) z : (let% _u := p in fun z => (Ok tt, z)) z = p z.
Proof. unfold zbind. destruct (p z) as ([ [] | | ], z'); reflexivity. Qed.

Lemma coo_save c t d m z : default_dtype c t = Some (Ok d) -> coo_write_npz c t m z = save_all c (layout c t d (Coo m)) z.
Proof.
  intros Hd. unfold coo_write_npz, layout. cbn [save_all]. change (lit "coo") with (format_name FCoo).
  unfold zbind. rewrite write_format_save, write_shape_save, !write_indices_save, (write_data_save c t d _ _ Hd).
  destruct (save c (format_array FCoo) z) as ([ [] | | ], z1); try reflexivity. destruct (save c _ z1) as ([ [] | | ], z2); try reflexivity.
  destruct (save c _ z2) as ([ [] | | ], z3); try reflexivity. destruct (save c _ z3) as ([ [] | | ], z4); try reflexivity. destruct (save c _ z4) as ([ [] | | ], z5); reflexivity.
Qed.
Lemma csr_save c t d m z : default_dtype c t = Some (Ok d) -> csr_write_npz c t m z = save_all c (layout c t d (Csr m)) z.
Proof.
  intros Hd. unfold csr_write_npz, layout. cbn [save_all]. change (lit "csr") with (format_name FCsr).
  unfold zbind. rewrite write_format_save, write_shape_save, !write_indices_save, (write_data_save c t d _ _ Hd).
  destruct (save c (format_array FCsr) z) as ([ [] | | ], z1); try reflexivity. destruct (save c _ z1) as ([ [] | | ], z2); try reflexivity.
  destruct (save c _ z2) as ([ [] | | ], z3); try reflexivity. destruct (save c _ z3) as ([ [] | | ], z4); try reflexivity. destruct (save c _ z4) as ([ [] | | ], z5); reflexivity.
Qed.
Lemma csc_save c t d m z : default_dtype c t = Some (Ok d) -> csc_write_npz c t m z = save_all c (layout c t d (Csc m)) z.
Proof.
  intros Hd. unfold csc_write_npz, layout. cbn [save_all]. change (lit "csc") with (format_name FCsc).
  unfold zbind. rewrite write_format_save, write_shape_save, !write_indices_save, (write_data_save c t d _ _ Hd).
  destruct (save c (format_array FCsc) z) as ([ [] | | ], z1); try reflexivity. destruct (save c _ z1) as ([ [] | | ], z2); try reflexivity.
  destruct (save c _ z2) as ([ [] | | ], z3); try reflexivity. destruct (save c _ z3) as ([ [] | | ], z4); try reflexivity. destruct (save c _ z4) as ([ [] | | ], z5); reflexivity.
Qed.
(** DIA: a nonzero number of offsets dividing the data, or a panic after the first three arrays. *)
Lemma dia_save c t d m z : default_dtype c t = Some (Ok d) ->
  dia_write_npz c t m z = if (lenN (dia_offsets m) =? 0) || negb (lenN (dia_data m) mod lenN (dia_offsets m) =? 0)
    then (let% _u := save_all c [format_array FDia; shape_array c (dia_shape m); index_array c (lit "offsets") (dia_offsets m)] in zret Panic) z
    else save_all c (layout c t d (Dia m)) z.
Proof.
  intros Hd. unfold dia_write_npz, layout. cbn [save_all]. change (lit "dia") with (format_name FDia).
  unfold zbind. rewrite write_format_save, write_shape_save, write_indices_save. 
  destruct (lenN (dia_offsets m) =? 0) eqn:E0; cbn [orb]; [ | destruct (lenN (dia_data m) mod lenN (dia_offsets m) =? 0) eqn:E1; cbn [negb] ].
  all: destruct (save c (format_array FDia) z) as ([ [] | | ], z1); try reflexivity; destruct (save c _ z1) as ([ [] | | ], z2); try reflexivity.
  all: destruct (save c _ z2) as ([ [] | | ], z3); try reflexivity.
  rewrite (write_data_save c t d _ _ Hd). destruct (save c _ z3) as ([ [] | | ], z4); reflexivity.
Qed.
(** BSR: the products, wrapped or panicking, are compared with the length of the data. *)
Lemma bsr_save c t d m z : default_dtype c t = Some (Ok d) ->
  bsr_write_npz c t m z =
  match (let* n := usize_mul c (lenN (bsr_indices m)) (fst (bsr_blocksize m)) in usize_mul c n (snd (bsr_blocksize m))) with
  | Ok n => if lenN (bsr_data m) =? n then save_all c (layout c t d (Bsr m)) z else
      (let% _u := save_all c [format_array FBsr; shape_array c (bsr_shape m); index_array c (lit "indices") (map signed (bsr_indices m)); index_array c (lit "indptr") (map signed (bsr_indptr m))] in zret Panic) z
  | _ => (let% _u := save_all c [format_array FBsr; shape_array c (bsr_shape m); index_array c (lit "indices") (map signed (bsr_indices m)); index_array c (lit "indptr") (map signed (bsr_indptr m))] in zret Panic) z
  end.
Proof.
  intros Hd. unfold bsr_write_npz, layout. destruct (bsr_blocksize m) as (b0, b1). cbn [save_all fst snd]. change (lit "bsr") with (format_name FBsr).
  unfold zbind. rewrite write_format_save, write_shape_save, !write_indices_save.
  assert (Hn : forall a b e, usize_mul c a b <> Err e) by (intros a b e; unfold usize_mul; destruct (_ <=? _); [ discriminate | destruct (c_ovf_panics c); discriminate ]).
  assert (Hm : forall e, bind (usize_mul c (lenN (bsr_indices m)) b0) (fun n => usize_mul c n b1) <> Err e).
  { intros e. destruct (usize_mul c (lenN (bsr_indices m)) b0) eqn:E; cbn [bind]; [ apply Hn | now elim (Hn _ _ _ E) | discriminate ]. }
  destruct (bind (usize_mul c (lenN (bsr_indices m)) b0) (fun n => usize_mul c n b1)) as [ n | e | ]; [ | now elim (Hm e) | ].
  - destruct (lenN (bsr_data m) =? n) eqn:E.
    all: destruct (save c (format_array FBsr) z) as ([ [] | | ], z1); try reflexivity; destruct (save c _ z1) as ([ [] | | ], z2); try reflexivity.
    all: destruct (save c _ z2) as ([ [] | | ], z3); try reflexivity; destruct (save c _ z3) as ([ [] | | ], z4); try reflexivity; cbn [zret].
    + rewrite E. cbn [negb]. rewrite (write_data_save c t d _ _ Hd). destruct (save c _ z4) as ([ [] | | ], z5); reflexivity.
    + rewrite E. reflexivity.
  - destruct (save c (format_array FBsr) z) as ([ [] | | ], z1); try reflexivity; destruct (save c _ z1) as ([ [] | | ], z2); try reflexivity.
    destruct (save c _ z2) as ([ [] | | ], z3); try reflexivity; destruct (save c _ z3) as ([ [] | | ], z4); reflexivity.
Qed.

(** * The layout can be written and read *)
Definition storable (c c' : cfg) (x : saved) : Prop :=
  is_array x /\ can_write c x /\ can_read c' x /\ Forall (survives (sv_type x) (sv_dtype x)) (sv_vals x).
Lemma usize_small c n : wf_cfg c -> n <= 8 -> n <= c_usize_max c.
Proof.
  intros [ H | H ] Hn; change (2 ^ 64) with 18446744073709551616 in *; change (2 ^ 32) with 4294967296 in *; lia.
Qed.
Lemma usize_below c n : wf_cfg c -> n <= c_usize_max c -> n < 2 ^ 64.
Proof.
  intros [ H | H ] Hn; change (2 ^ 64) with 18446744073709551616 in *; change (2 ^ 32) with 4294967296 in *; lia.
Qed.
Lemma format_storable c c' f : wf_cfg c -> wf_cfg c' -> storable c c' (format_array f).
Proof.
  intros Hc Hc'. pose proof (usize_small c 6 Hc ltac:(lia)). pose proof (usize_small c' 6 Hc' ltac:(lia)). unfold storable, format_array, array, is_array, can_write, can_read.
  cbn [sv_dtype sv_type sv_vals sv_shape]. split; [ | split; [ | split ] ].
  - split; [ wf_case | ]. split; [ repeat constructor; destruct f; repeat constructor | ]. split; [ constructor | ]. split; [ | reflexivity ].
    intros k; destruct k; split; reflexivity.
  - split; [ exact I | ]. split; [ cbn; lia | ]. split; [ cbn; repeat split; auto; lia | ]. split; [ constructor; [ destruct f; eexists; vm_compute; reflexivity | constructor ] | vm_compute; discriminate ].
  - cbn. repeat split; auto; lia.
  - constructor; [ | constructor ]. cbn. intros _. destruct f; now apply no_final_zero_last.
Qed.
Lemma ints_storable c c' name w l : wf_cfg c -> wf_cfg c' -> w = W4 \/ w = W8 -> lenN l < 2 ^ 64 -> Forall (fun z => int_min true w <= z <= int_max true w)%Z l ->
  storable c c' (array name (RInt true w) (native_int c (wbytes w)) [lenN l] (map XInt l)).
Proof.
  intros Hc Hc' Hw Hl Hz. assert (Hb : wbytes w <= 8) by (destruct Hw as [ -> | -> ]; cbn; lia). pose proof (usize_small c _ Hc Hb). pose proof (usize_small c' _ Hc' Hb).
  unfold storable, array, is_array, can_write, can_read, native_int. cbn [sv_dtype sv_type sv_vals sv_shape]. split; [ | split; [ | split ] ].
  - split; [ destruct Hw as [ -> | -> ]; destruct (c_big c); wf_case | ]. split; [ apply Forall_map; exact Hz | ]. split; [ repeat constructor; auto | ].
    split; [ now apply no_overflow_1 | ]. unfold lenN, count. rewrite map_length. cbn. lia.
  - split; [ exact I | ]. split; [ exact I | ]. split; [ cbn; split; [ auto | discriminate ] | ]. split; [ apply Forall_map; eapply Forall_impl; [ | exact Hz ]; intros z _; cbn; eauto | ].
    destruct Hw as [ -> | -> ]; destruct (c_big c); vm_compute; discriminate.
  - split; [ cbn; split; [ auto | discriminate ] | ]. cbn. auto.
  - apply Forall_map. eapply Forall_impl; [ | exact Hz ]. intros z _. cbn. exact I.
Qed.
Lemma index_storable c c' name l : wf_cfg c -> wf_cfg c' -> lenN l < 2 ^ 64 -> Forall i64_ok l -> storable c c' (index_array c name l).
Proof.
  intros Hc Hc' Hl Hz. unfold index_array. destruct (forallb fits_i32 l) eqn:E.
  - apply (ints_storable c c' name W4); auto. apply Forall_forall. intros z Hi. rewrite forallb_forall in E. apply E in Hi. unfold fits_i32 in Hi.
    change (int_min true W4) with (-2147483648)%Z. change (int_max true W4) with 2147483647%Z. change (2 ^ 31)%Z with 2147483648%Z in Hi. lia.
  - apply (ints_storable c c' name W8); auto. eapply Forall_impl; [ | exact Hz ]. intros z Hi. unfold i64_ok in Hi.
    change (int_min true W8) with (-9223372036854775808)%Z. change (int_max true W8) with 9223372036854775807%Z. change (2 ^ 63)%Z with 9223372036854775808%Z in Hi. lia.
Qed.
Lemma signed_range n : u64_ok n -> i64_ok (signed n).
Proof. unfold u64_ok, i64_ok, signed. intros H. destruct (N.ltb_spec n (2 ^ 63)); lia. Qed.
Lemma signed_ok l : Forall u64_ok l -> Forall i64_ok (map signed l).
Proof. intros H. apply Forall_map. eapply Forall_impl; [ | exact H ]. apply signed_range. Qed.
Lemma lenN_map {A B} (f : A -> B) l : lenN (map f l) = lenN l.
Proof. unfold lenN. now rewrite map_length. Qed.
Lemma u64_indices_storable c c' name l : wf_cfg c -> wf_cfg c' -> lenN l < 2 ^ 64 -> Forall u64_ok l -> storable c c' (index_array c name (map signed l)).
Proof. intros Hc Hc' Hl Hu. apply index_storable; auto; [ now rewrite lenN_map | now apply signed_ok ]. Qed.
Lemma shape_storable c c' s : wf_cfg c -> wf_cfg c' -> shape_ok s -> storable c c' (shape_array c s).
Proof.
  intros Hc Hc' (H1 & H2). unfold shape_array. apply (ints_storable c c' (lit "shape") W8 [signed (fst s); signed (snd s)]); auto; [ reflexivity | ].
  pose proof (signed_range _ H1) as R1. pose proof (signed_range _ H2) as R2. unfold i64_ok in R1, R2. change (2 ^ 63)%Z with 9223372036854775808%Z in *.
  change (int_min true W8) with (-9223372036854775808)%Z. change (int_max true W8) with 9223372036854775807%Z.
  constructor; [ lia | constructor; [ lia | constructor ] ].
Qed.
Lemma data_storable c c' t d vs shape : wf_cfg c -> data_ok c c' t d vs -> lenN shape <= 3 -> Forall u64_ok shape -> no_overflow shape -> lenN vs = count shape ->
  storable c c' (array (lit "data") t d shape vs).
Proof.
  intros Hc (Hd & Hh & Ht & Hs & Ha & Hz & Hsf & Hv & Hu & Hsv) Hl H64 Hno Hcnt. destruct (default_ok c t Hc Hh) as (d' & Hd' & Hwf & _ & Ha' & He).
  rewrite Hd in Hd'. injection Hd' as <-.
  unfold storable, array, is_array, can_write, can_read. cbn [sv_dtype sv_type sv_vals sv_shape]. split; [ | split; [ | split ] ].
  - split; [ auto | ]. split; [ auto | ]. split; [ exact H64 | ]. split; auto.
  - split; [ auto | ]. split; [ eapply default_fits; eauto | ]. split; [ auto | ]. split; [ | unfold short_header; lia ]. apply Forall_forall. intros v Hi. rewrite Forall_forall in Hv, Hu. eauto.
  - auto.
  - auto.
Qed.
Lemma layout_storable c c' t d m : wf_cfg c -> wf_cfg c' -> matrix_ok (N.min (c_usize_max c) (c_usize_max c')) m -> data_ok c c' t d (data_of m) ->
  Forall (storable c c') (layout c t d m).
Proof.
  intros Hc Hc' (Hlen & Hm) Hd. assert (Hb : forall n, n <= N.min (c_usize_max c) (c_usize_max c') -> n < 2 ^ 64) by (intros n Hn; apply (usize_below c); auto; lia).
  assert (Hp : forall l, Forall (fun n => n <= N.min (c_usize_max c) (c_usize_max c')) l -> Forall u64_ok l) by (intros l H; eapply Forall_impl; [ | exact H ]; exact Hb).
  assert (Hdata : storable c c' (array (lit "data") t d [lenN (data_of m)] (data_of m))).
  { apply data_storable; [ exact Hc | exact Hd | cbn; lia | constructor; [ apply Hb; auto | constructor ] | apply no_overflow_1; auto | cbn; lia ]. }
  destruct m as [ m | m | m | m | m ]; cbn [layout data_of] in *.
  - destruct Hm as (Hs & Hr & Hcl & L1 & L2). repeat (apply Forall_cons; [ | ]); auto using format_storable, shape_storable, u64_indices_storable.
  - destruct Hm as (Hs & Hr & Hcl & L1 & L2). repeat (apply Forall_cons; [ | ]); auto using format_storable, shape_storable, u64_indices_storable.
  - destruct Hm as (Hs & Hr & Hcl & L1 & L2). repeat (apply Forall_cons; [ | ]); auto using format_storable, shape_storable, u64_indices_storable.
  - destruct Hm as (Hs & Ho & L1 & len & L2 & L3). repeat (apply Forall_cons; [ | ]); auto using format_storable, shape_storable, index_storable.
    rewrite L3, N.div_mul by lia. specialize (Hb _ Hlen) as Hlen'. rewrite L3 in Hlen'. assert (Hl1 : len < 2 ^ 64) by nia.
    apply data_storable; [ exact Hc | exact Hd | cbn; lia | repeat constructor; unfold u64_ok; auto | apply no_overflow_2; auto | rewrite L3; cbn; lia ].
  - destruct (bsr_blocksize m) as (b0, b1). destruct Hm as ((Hs & Hr & Hcl & L1 & L2) & B0 & B1 & L3 & L4 & Hno). cbn [fst snd]. repeat (apply Forall_cons; [ | ]); auto using format_storable, shape_storable, u64_indices_storable.
    apply data_storable; [ exact Hc | exact Hd | cbn; lia | repeat constructor; unfold u64_ok; auto | exact Hno | rewrite L3; cbn; lia ].
Qed.

Lemma write_is_save c c' t d m z : matrix_ok (N.min (c_usize_max c) (c_usize_max c')) m -> default_dtype c t = Some (Ok d) ->
  sparse_write_npz c t m z = save_all c (layout c t d m) z.
Proof.
  intros (Hlen & Hm) Hd. destruct m as [ m | m | m | m | m ]; cbn [sparse_write_npz data_of] in *.
  - now apply coo_save.
  - now apply csr_save.
  - now apply csc_save.
  - rewrite (dia_save c t d) by auto. destruct Hm as (_ & _ & _ & len & L2 & L3). rewrite L3, N.mod_mul by lia. replace (lenN (dia_offsets m) =? 0) with false by lia. reflexivity.
  - rewrite (bsr_save c t d) by auto. destruct (bsr_blocksize m) as (b0, b1). cbn [fst snd]. destruct Hm as (_ & _ & _ & L3 & L4 & _).
    unfold usize_mul. replace (lenN (bsr_indices m) * b0 <=? c_usize_max c) with true by lia. cbn [bind]. rewrite <- L3. replace (lenN (bsr_data m) <=? c_usize_max c) with true by lia.
    rewrite N.eqb_refl. reflexivity.
Qed.
Lemma entry_holds c c' x e : storable c c' x -> entry_of x e -> holds c' x e.
Proof.
  intros (Hx & _ & Hr & Hs) (Hn & He). split; [ exact Hn | ]. specialize (He c' Hr). destruct Hx as (_ & Hv & _). rewrite (read_back_all c') in He; auto. apply Hr.
Qed.
Lemma written c c' t d m z z' : wf_cfg c -> wf_cfg c' -> matrix_ok (N.min (c_usize_max c) (c_usize_max c')) m -> data_ok c c' t d (data_of m) ->
  sparse_write_npz c t m z = (Ok tt, z') -> exists new, nz_entries z' = nz_entries z ++ new /\ Forall2 (holds c') (layout c t d m) new.
Proof.
  intros Hc Hc' Hm Hd H. pose proof (layout_storable c c' t d m Hc Hc' Hm Hd) as Hl. rewrite (write_is_save c c' t d m z Hm) in H by apply Hd.
  apply save_all_ok in H as (new & He & HF); [ | eapply Forall_impl; [ | exact Hl ]; intros x Hx; apply Hx ]. exists new. split; [ auto | ].
  clear - HF Hl. induction HF as [ | x e l new He HF IH ]; [ constructor | ]. apply Forall_cons_iff in Hl as (Hx & Hl). constructor; [ | auto ]. eapply entry_holds; eauto.
Qed.
Lemma write_succeeds c c' t d m z : wf_cfg c -> wf_cfg c' -> matrix_ok (N.min (c_usize_max c) (c_usize_max c')) m -> data_ok c c' t d (data_of m) ->
  nz_fuel z = None -> exists z', sparse_write_npz c t m z = (Ok tt, z').
Proof.
  intros Hc Hc' Hm Hd Hf. pose proof (layout_storable c c' t d m Hc Hc' Hm Hd) as Hl. rewrite (write_is_save c c' t d m z Hm) by apply Hd.
  apply save_all_succeeds; auto; (eapply Forall_impl; [ | exact Hl ]; intros x Hx; apply Hx).
Qed.

(** * Reading *)
Lemma found_ndim c a name t d o shape vs : found c a name t d o shape vs -> exists f, extract_and_check_ndim c a name (lenN shape) = Ok f
  /\ h_dtype (nf_header f) = d /\ h_order (nf_header f) = o /\ h_shape (nf_header f) = shape /\ fst (npy_into_vec c t f) = Ok vs.
Proof.
  intros (f & Hb & Hd & Ho & Hs & Hv). exists f. unfold extract_and_check_ndim. rewrite Hb. cbn [bind]. rewrite Hs, N.eqb_refl. auto.
Qed.
Lemma read_format c a f : found c a (lit "format") RVecU8 (sv_dtype (format_array f)) OrderC [] [XBytes (format_name f)] -> the_format c a = Ok (format_name f).
Proof.
  intros H. destruct (found_ndim _ _ _ _ _ _ _ _ H) as (nf & H1 & _ & _ & _ & Hv). unfold the_format, extract_scalar. change (lenN (@nil N)) with 0 in H1. rewrite H1. cbn [bind]. rewrite Hv. reflexivity.
Qed.
Lemma read_1d c a name t d o n vs : found c a name t d o [n] vs -> extract_1d c a t name = Ok vs.
Proof.
  intros H. destruct (found_ndim _ _ _ _ _ _ _ _ H) as (nf & H1 & _ & _ & _ & Hv). unfold extract_1d. change (lenN [n]) with 1 in H1. rewrite H1. cbn [bind]. exact Hv.
Qed.
Lemma read_nd c a name t d shape vs : found c a name t d OrderC shape vs -> extract_nd c a t name (lenN shape) = Ok (vs, map (to_usize c) shape).
Proof.
  intros H. destruct (found_ndim _ _ _ _ _ _ _ _ H) as (nf & H1 & _ & Ho & Hs & Hv). unfold extract_nd. rewrite H1. cbn [bind]. rewrite Ho, Hv, Hs. reflexivity.
Qed.
(** The items of a file, in the two ways of asking for them. *)
Lemma try_data_vec c t f vs : fst (npy_into_vec c t f) = Ok vs -> exists r, npy_try_data c t f = inl r /\ collect_all c r = Ok vs.
Proof.
  unfold npy_into_vec, npy_data, npy_try_data. destruct (h_pickled (nf_header f)); [ discriminate | ]. destruct (reader c t (h_dtype (nf_header f))) as [ r | e ]; [ | discriminate ].
  cbn [dbind]. intros H. eexists. split; [ reflexivity | ]. unfold collect_all, nr_total_len. cbn [nr_header]. destruct (nr_collect c _ _) as (v, r') eqn:E. cbn [fst] in *. exact H.
Qed.
Lemma not_i32 c c0 f : h_dtype (nf_header f) = native_int c0 8 -> npy_try_data c i32_type f = inr f.
Proof.
  intros H. unfold npy_try_data. destruct (h_pickled (nf_header f)); [ reflexivity | ]. rewrite H. destruct (reader c i32_type (native_int c0 8)) as [ r | e ] eqn:E; [ | reflexivity ].
  exfalso. assert (Ha : accepts (c_usize_max c) Reading i32_type (native_int c0 8)) by (apply reader_accepts; eauto). cbn in Ha. destruct Ha as ((Ha & _) & _). discriminate Ha.
Qed.
Definition found_array (c : cfg) (a : archive) (x : saved) : Prop := found c a (sv_name x) (sv_type x) (sv_dtype x) (sv_order x) (sv_shape x) (sv_vals x).
Lemma read_signed c c0 a name l : found_array c a (index_array c0 name l) -> extract_signed_indices c a name = Ok l
  /\ extract_indices c a name = Ok (map to_u64 l).
Proof.
  intros H. assert (Hi : map int_of (map XInt l) = l) by (rewrite map_map; apply map_id).
  assert (Hu : map (fun v => to_u64 (int_of v)) (map XInt l) = map to_u64 l) by (rewrite map_map; reflexivity).
  unfold found_array, index_array in H. unfold extract_signed_indices, extract_indices. destruct (forallb fits_i32 l); cbn [array sv_name sv_type sv_dtype sv_order sv_shape sv_vals] in H.
  - destruct (found_ndim _ _ _ _ _ _ _ _ H) as (nf & H1 & Hd & _ & _ & Hv). change (lenN [lenN l]) with 1 in H1. rewrite H1. cbn [bind].
    destruct (try_data_vec _ _ _ _ Hv) as (r & Er & Ec). fold i32_type in Er. rewrite Er, Ec. cbn [bind]. now rewrite Hi, Hu.
  - destruct (found_ndim _ _ _ _ _ _ _ _ H) as (nf & H1 & Hd & _ & _ & Hv). change (lenN [lenN l]) with 1 in H1. rewrite H1. cbn [bind].
    rewrite (not_i32 c c0 nf Hd). destruct (try_data_vec _ _ _ _ Hv) as (r & Er & Ec). fold i64_type in Er. rewrite Er, Ec. cbn [bind]. now rewrite Hi, Hu.
Qed.
Lemma u64_signed n : u64_ok n -> to_u64 (signed n) = n.
Proof.
  unfold u64_ok, to_u64, signed. intros H. destruct (N.ltb_spec n (2 ^ 63)).
  - rewrite Z.mod_small by lia. lia.
  - replace (Z.of_N n - 2 ^ 64)%Z with (Z.of_N n + (-1) * 2 ^ 64)%Z by lia. rewrite Z.mod_add by lia. rewrite Z.mod_small by lia. lia.
Qed.
Lemma u64_back l : Forall u64_ok l -> map to_u64 (map signed l) = l.
Proof. intros H. rewrite map_map. induction H as [ | n l Hn Hl IH ]; [ reflexivity | ]. cbn [map]. now rewrite u64_signed, IH. Qed.
Lemma usize_back c l : Forall (fun n => n <= c_usize_max c) l -> map (to_usize c) l = l.
Proof. induction 1 as [ | n l Hn Hl IH ]; [ reflexivity | ]. cbn [map]. rewrite IH. unfold to_usize. now rewrite N.mod_small by lia. Qed.
Lemma read_u64 c c0 a name l : Forall u64_ok l -> found_array c a (index_array c0 name (map signed l)) -> extract_indices c a name = Ok l.
Proof. intros Hl H. apply read_signed in H as (_ & H). rewrite H. now rewrite u64_back. Qed.
Lemma read_usize c c0 a name l : wf_cfg c -> Forall (fun n => n <= c_usize_max c) l -> found_array c a (index_array c0 name (map signed l)) -> extract_usize_indices c a name = Ok l.
Proof.
  intros Hc Hl H. unfold extract_usize_indices. rewrite (read_u64 c c0 a name l); auto; [ cbn [bind]; now rewrite usize_back | ].
  eapply Forall_impl; [ | exact Hl ]. intros n Hn. now apply (usize_below c).
Qed.
Lemma read_shape c c0 a s : shape_ok s -> found_array c a (shape_array c0 s) -> extract_shape c a (lit "shape") = Ok s.
Proof.
  intros (H1 & H2) H. unfold found_array, shape_array in H. cbn [array sv_name sv_type sv_dtype sv_order sv_shape sv_vals] in H. unfold extract_shape, extract_indices.
  destruct (found_ndim _ _ _ _ _ _ _ _ H) as (nf & Hf & Hd & _ & _ & Hv). change (lenN [2]) with 1 in Hf. rewrite Hf. cbn [bind].
  rewrite (not_i32 c c0 nf Hd). destruct (try_data_vec _ _ _ _ Hv) as (r & Er & Ec). fold i64_type in Er. rewrite Er, Ec. cbn [bind map int_of]. rewrite !u64_signed by auto. now destruct s.
Qed.

Lemma holds_found c l new a x : Forall2 (holds c) l new -> NoDup (map sv_name l) -> In x l -> found_array c (a ++ new) x.
Proof.
  intros HF Hd Hi. assert (Hz : exists e, zip_find (sv_name x ++ lit ".npy") new = Some (snd e) /\ holds c x e).
  { induction HF as [ | y e l new He HF IH ]; [ destruct Hi | ]. cbn [map] in Hd. apply NoDup_cons_iff in Hd as (Hn & Hd). cbn [zip_find]. destruct e as (f, bs).
    assert (Hnm : map fst new = map (fun x => file_name_from_array_name (sv_name x)) l).
    { clear - HF. induction HF as [ | y e l new (E & _) HF IH ]; [ reflexivity | ]. cbn [map]. now rewrite E, IH. }
    destruct Hi as [ -> | Hi ].
    - assert (Hnone : zip_find (sv_name x ++ lit ".npy") new = None) by (apply find_none; rewrite Hnm; now apply not_saved).
      rewrite Hnone. destruct He as (E & Hr). cbn [fst] in E. rewrite E, eqb_list_refl. exists (f, bs). split; [ reflexivity | ]. split; [ exact E | exact Hr ].
    - destruct (IH Hd Hi) as (e & Ez & Hh). rewrite Ez. eauto. }
  destruct Hz as (e & Hz & (_ & Hr)). unfold found_array. eapply by_name_found; [ | exact Hr ]. rewrite find_app. unfold file_name_from_array_name. now rewrite Hz.
Qed.
Lemma index_name c n l : sv_name (index_array c n l) = n.
Proof. unfold index_array. destruct (forallb fits_i32 l); reflexivity. Qed.
Lemma layout_names c t d m : NoDup (map sv_name (layout c t d m)).
Proof.
  destruct m; cbn [layout map]; rewrite ?index_name; cbn [format_array shape_array array sv_name]; repeat constructor; cbn; intuition discriminate.
Qed.
Lemma format_eqb f g : eqb_list (format_name f) (format_name g) = true <-> f = g.
Proof. destruct f, g; cbn; split; intros; try reflexivity; discriminate. Qed.

Lemma read_typed c c0 t d m a new : wf_cfg c -> matrix_ok (c_usize_max c) m -> Forall2 (holds c) (layout c0 t d m) new ->
  (forall f, f <> format_of m -> exists e, read_as f c t (a ++ new) = Err e) /\ read_as (format_of m) c t (a ++ new) = Ok m
  /\ the_format c (a ++ new) = Ok (format_name (format_of m)).
Proof.
  intros Hc (Hlen & Hm) HF. set (A := a ++ new). assert (HA : forall x, In x (layout c0 t d m) -> found_array c A x) by (intros x; apply holds_found; [ auto | apply layout_names ]).
  assert (Hf : the_format c A = Ok (format_name (format_of m))).
  { apply read_format. apply (HA (format_array (format_of m))). destruct m; now left. }
  split; [ | split; [ | exact Hf ] ].
  - intros f Hd. assert (He : exists e, expect_format c A (format_name f) = Err e).
    { unfold expect_format. rewrite Hf. cbn [bind]. destruct (eqb_list _ _) eqn:E; [ apply format_eqb in E; congruence | eauto ]. }
    destruct He as (e & He). exists e. destruct f; cbn [read_as format_name] in *; unfold coo_from_npz, csr_from_npz, csc_from_npz, dia_from_npz, bsr_from_npz; rewrite He; reflexivity.
  - assert (He : expect_format c A (format_name (format_of m)) = Ok tt) by (unfold expect_format; rewrite Hf; cbn [bind]; now rewrite eqb_list_refl).
    clearbody A. clear Hf HF. destruct m as [ m | m | m | m | m ]; cbn [format_of format_name read_as data_of] in *.
    + destruct Hm as (Hs & Hr & Hcl & _). unfold coo_from_npz. rewrite He. cbn [bind].
      rewrite (read_shape c c0 A (coo_shape m)) by (auto; apply HA; cbn; auto). cbn [bind]. rewrite (read_u64 c c0 A (lit "row") (coo_row m)) by (auto; apply HA; cbn; auto). cbn [bind].
      rewrite (read_u64 c c0 A (lit "col") (coo_col m)) by (auto; apply HA; cbn; auto). cbn [bind].
      erewrite (read_1d c A (lit "data")) by (apply (HA (array (lit "data") t d [lenN (coo_data m)] (coo_data m))); cbn; auto 6). cbn [bind]. now destruct m.
    + destruct Hm as (Hs & Hr & Hcl & _). unfold csr_from_npz. rewrite He. cbn [bind].
      rewrite (read_shape c c0 A (csr_shape m)) by (auto; apply HA; cbn; auto). cbn [bind]. rewrite (read_u64 c c0 A (lit "indices") (csr_indices m)) by (auto; apply HA; cbn; auto). cbn [bind].
      rewrite (read_usize c c0 A (lit "indptr") (csr_indptr m)) by (auto; apply HA; cbn; auto). cbn [bind].
      erewrite (read_1d c A (lit "data")) by (apply (HA (array (lit "data") t d [lenN (csr_data m)] (csr_data m))); cbn; auto 6). cbn [bind]. now destruct m.
    + destruct Hm as (Hs & Hr & Hcl & _). unfold csc_from_npz. rewrite He. cbn [bind].
      rewrite (read_shape c c0 A (csc_shape m)) by (auto; apply HA; cbn; auto). cbn [bind]. rewrite (read_u64 c c0 A (lit "indices") (csc_indices m)) by (auto; apply HA; cbn; auto). cbn [bind].
      rewrite (read_usize c c0 A (lit "indptr") (csc_indptr m)) by (auto; apply HA; cbn; auto). cbn [bind].
      erewrite (read_1d c A (lit "data")) by (apply (HA (array (lit "data") t d [lenN (csc_data m)] (csc_data m))); cbn; auto 6). cbn [bind]. now destruct m.
    + destruct Hm as (Hs & Ho & _). unfold dia_from_npz. rewrite He. cbn [bind].
      rewrite (read_shape c c0 A (dia_shape m)) by (auto; apply HA; cbn; auto). cbn [bind].
      rewrite (proj1 (read_signed c c0 A (lit "offsets") (dia_offsets m) ltac:(apply HA; cbn; auto))). cbn [bind].
      pose proof (read_nd c A (lit "data") t d _ _ (HA (array (lit "data") t d [lenN (dia_data m) / lenN (dia_offsets m); lenN (dia_offsets m)] (dia_data m)) ltac:(cbn; auto 6))) as H.
      cbn [array sv_shape sv_vals] in H. change (lenN [lenN (dia_data m) / lenN (dia_offsets m); lenN (dia_offsets m)]) with 2 in H. rewrite H. cbn [bind fst]. now destruct m.
    + unfold bsr_from_npz. rewrite He. cbn [bind]. destruct (bsr_blocksize m) as (b0, b1) eqn:Eb. destruct Hm as ((Hs & Hr & Hcl & L1 & _) & B0 & B1 & _). cbn [layout] in HA. rewrite Eb in HA. cbn [fst snd] in HA.
      rewrite (read_shape c c0 A (bsr_shape m)) by (auto; apply HA; cbn; auto). cbn [bind]. rewrite (read_u64 c c0 A (lit "indices") (bsr_indices m)) by (auto; apply HA; cbn; auto). cbn [bind].
      rewrite (read_usize c c0 A (lit "indptr") (bsr_indptr m)) by (auto; apply HA; cbn; auto). cbn [bind].
      pose proof (read_nd c A (lit "data") t d _ _ (HA (array (lit "data") t d [lenN (bsr_indices m); b0; b1] (bsr_data m)) ltac:(cbn; auto 6))) as H.
      cbn [array sv_shape sv_vals] in H. change (lenN [lenN (bsr_indices m); b0; b1]) with 3 in H. rewrite H. cbn [bind fst snd].
      rewrite usize_back by (repeat constructor; auto). destruct m. cbn in *. now subst.
Qed.
Lemma matrix_ok_mono a b m : a <= b -> matrix_ok a m -> matrix_ok b m.
Proof.
  intros Hab (H1 & H2). assert (HF : forall l, Forall (fun n => n <= a) l -> Forall (fun n => n <= b) l) by (intros l H; eapply Forall_impl; [ | exact H ]; cbn; intros; lia).
  split; [ lia | ]. destruct m as [ m | m | m | m | m ]; cbn [data_of] in *; unfold compressed_ok in *.
  - destruct H2 as (A1 & A2 & A3 & A4 & A5). repeat (split; [ assumption | ]). lia.
  - destruct H2 as (A1 & A2 & A3 & A4 & A5). split; [ auto | split; [ auto | split; [ auto | lia ] ] ].
  - destruct H2 as (A1 & A2 & A3 & A4 & A5). split; [ auto | split; [ auto | split; [ auto | lia ] ] ].
  - destruct H2 as (A1 & A2 & A3 & A4). split; [ auto | split; [ auto | split; [ lia | auto ] ] ].
  - destruct (bsr_blocksize m) as (b0, b1). destruct H2 as ((A1 & A2 & A3 & A4 & A5) & B0 & B1 & B2 & B3 & B4).
    split; [ split; [ auto | split; [ auto | split; [ auto | lia ] ] ] | ]. split; [ lia | ]. split; [ lia | ]. split; [ lia | ]. split; [ lia | auto ].
Qed.
Lemma sparse_round_trip c c' t d m z z' : wf_cfg c -> wf_cfg c' -> matrix_ok (N.min (c_usize_max c) (c_usize_max c')) m -> data_ok c c' t d (data_of m) ->
  sparse_write_npz c t m z = (Ok tt, z') ->
  sparse_from_npz c' t (nz_entries z') = Ok m /\ read_as (format_of m) c' t (nz_entries z') = Ok m
  /\ forall f, f <> format_of m -> exists e, read_as f c' t (nz_entries z') = Err e.
Proof.
  intros Hc Hc' Hm Hd H. destruct (written c c' t d m z z' Hc Hc' Hm Hd H) as (new & -> & HF).
  destruct (read_typed c' c t d m (nz_entries z) new Hc' ltac:(eapply matrix_ok_mono; [ | exact Hm ]; lia) HF) as (H1 & H2 & H3).
  split; [ | auto ]. unfold sparse_from_npz. rewrite H3. cbn [bind]. destruct m; exact H2.
Qed.

(** * Matrices that are not accepted *)
Lemma prefix_then_panic c c' l z : Forall (storable c c') l -> nz_fuel z = None -> exists z', (let% _u := save_all c l in zret (@Panic unit)) z = (Panic, z').
Proof.
  intros Hl Hf. destruct (save_all_succeeds c l z) as (z' & H); auto; try (eapply Forall_impl; [ | exact Hl ]; intros x Hx; apply Hx).
  unfold zbind. rewrite H. eexists. reflexivity.
Qed.
Lemma dia_rejected c t d m z : wf_cfg c -> shape_ok (dia_shape m) -> Forall i64_ok (dia_offsets m) -> lenN (dia_offsets m) < 2 ^ 64 -> default_dtype c t = Some (Ok d) ->
  nz_fuel z = None -> ~ (exists length, 0 < lenN (dia_offsets m) /\ lenN (dia_data m) = length * lenN (dia_offsets m)) -> exists z', dia_write_npz c t m z = (Panic, z').
Proof.
  intros Hc Hs Ho Hl Hd Hf Hx. rewrite (dia_save c t d) by auto.
  assert (E : (lenN (dia_offsets m) =? 0) || negb (lenN (dia_data m) mod lenN (dia_offsets m) =? 0) = true).
  { destruct (N.eqb_spec (lenN (dia_offsets m)) 0) as [ | H0 ]; [ reflexivity | ]. cbn [orb]. destruct (N.eqb_spec (lenN (dia_data m) mod lenN (dia_offsets m)) 0) as [ E | ]; [ | reflexivity ].
    elim Hx. exists (lenN (dia_data m) / lenN (dia_offsets m)). split; [ lia | ]. pose proof (N.div_mod (lenN (dia_data m)) (lenN (dia_offsets m)) H0). lia. }
  rewrite E. apply (prefix_then_panic c c); [ | auto ]. repeat (apply Forall_cons; [ | ]); auto using format_storable, shape_storable, index_storable.
Qed.
Lemma bsr_rejected c t d m z : wf_cfg c -> compressed_ok (c_usize_max c) (bsr_shape m) (bsr_indices m) (bsr_indptr m) -> default_dtype c t = Some (Ok d) ->
  nz_fuel z = None -> lenN (bsr_indices m) * fst (bsr_blocksize m) * snd (bsr_blocksize m) <= c_usize_max c ->
  lenN (bsr_data m) <> lenN (bsr_indices m) * fst (bsr_blocksize m) * snd (bsr_blocksize m) -> 0 < snd (bsr_blocksize m) -> exists z', bsr_write_npz c t m z = (Panic, z').
Proof.
  intros Hc (Hs & Hi & Hp & L1 & L2) Hd Hf Hu Hx Hb. rewrite (bsr_save c t d) by auto. destruct (bsr_blocksize m) as (b0, b1). cbn [fst snd] in *.
  unfold usize_mul. replace (lenN (bsr_indices m) * b0 <=? c_usize_max c) with true by nia. cbn [bind]. replace (lenN (bsr_indices m) * b0 * b1 <=? c_usize_max c) with true by lia.
  replace (lenN (bsr_data m) =? lenN (bsr_indices m) * b0 * b1) with false by lia. apply (prefix_then_panic c c); [ | auto ].
  assert (Hp' : Forall u64_ok (bsr_indptr m)) by (eapply Forall_impl; [ | exact Hp ]; intros n Hn; now apply (usize_below c)).
  assert (Hb' : forall n, n <= c_usize_max c -> n < 2 ^ 64) by (intros; now apply (usize_below c)).
  repeat (apply Forall_cons; [ | ]); auto using format_storable, shape_storable, u64_indices_storable.
Qed.

(** * Index arrays *)
Lemma indices_written c c' name l z z' : wf_cfg c -> wf_cfg c' -> Forall i64_ok l -> lenN l < 2 ^ 64 -> write_indices c name l z = (Ok tt, z') ->
  exists bs, nz_entries z' = nz_entries z ++ [(file_name_from_array_name name, bs)]
  /\ (Forall (fun x => - 2 ^ 31 <= x < 2 ^ 31)%Z l -> reads_as c' (RInt true W4) bs 0 (native_int c 4) OrderC [lenN l] (map XInt l))
  /\ (~ Forall (fun x => - 2 ^ 31 <= x < 2 ^ 31)%Z l -> reads_as c' (RInt true W8) bs 0 (native_int c 8) OrderC [lenN l] (map XInt l))
  /\ extract_signed_indices c' (nz_entries z') name = Ok l /\ extract_indices c' (nz_entries z') name = Ok (map to_u64 l).
Proof.
  intros Hc Hc' Hl Hn H. rewrite write_indices_save in H. pose proof (index_storable c c' name l Hc Hc' Hn Hl) as Hst.
  assert (Hx : sv_name (index_array c name l) = name) by apply index_name.
  apply save_ok in H as (bs & He & Hr); [ | apply Hst ]. rewrite Hx in He. exists bs. split; [ exact He | ].
  assert (Hh : holds c' (index_array c name l) (file_name_from_array_name name, bs)).
  { eapply entry_holds; [ exact Hst | ]. split; [ cbn [fst]; now rewrite Hx | exact Hr ]. }
  assert (Hfit : forallb fits_i32 l = true <-> Forall (fun x => - 2 ^ 31 <= x < 2 ^ 31)%Z l).
  { rewrite forallb_forall, Forall_forall. unfold fits_i32. split; intros HH x Hi; specialize (HH x Hi); lia. }
  pose proof Hh as (_ & Hread). unfold index_array in Hread. cbn [snd] in Hread.
  split; [ | split ].
  - intros HF. apply Hfit in HF. rewrite HF in Hread. exact Hread.
  - intros HF. destruct (forallb fits_i32 l) eqn:E; [ elim HF; now apply Hfit | exact Hread ].
  - apply (read_signed c' c). rewrite He. apply (holds_found c' [index_array c name l]); [ repeat constructor; apply Hh | repeat constructor; intros [] | now left ].
Qed.
Lemma u64_indices_written c c' name l z z' : wf_cfg c -> wf_cfg c' -> Forall u64_ok l -> lenN l < 2 ^ 64 -> write_indices c name (map as_i64 l) z = (Ok tt, z') ->
  extract_indices c' (nz_entries z') name = Ok l /\ (Forall (fun n => n <= c_usize_max c') l -> extract_usize_indices c' (nz_entries z') name = Ok l).
Proof.
  intros Hc Hc' Hl Hn H. change (map as_i64 l) with (map signed l) in H.
  destruct (indices_written c c' name (map signed l) z z' Hc Hc' (signed_ok l Hl) ltac:(now rewrite lenN_map) H) as (bs & _ & _ & _ & _ & He).
  rewrite u64_back in He by auto. split; [ auto | ]. intros Hu. unfold extract_usize_indices. rewrite He. cbn [bind]. now rewrite usize_back.
Qed.
Lemma indices_succeed c name l z : wf_cfg c -> Forall i64_ok l -> lenN l < 2 ^ 64 -> nz_fuel z = None -> exists z', write_indices c name l z = (Ok tt, z').
Proof.
  intros Hc Hl Hn Hf. rewrite write_indices_save. pose proof (index_storable c c name l Hc Hc Hn Hl) as (H1 & H2 & _). destruct (save_succeeds c _ z H1 H2 Hf) as (z' & H & _). eauto.
Qed.

(** * DIA *)
Lemma dia_data_shape c c' t d m z z' : wf_cfg c -> wf_cfg c' -> matrix_ok (N.min (c_usize_max c) (c_usize_max c')) (Dia m) -> data_ok c c' t d (dia_data m) ->
  dia_write_npz c t m z = (Ok tt, z') ->
  found c' (nz_entries z') (lit "data") t d OrderC [lenN (dia_data m) / lenN (dia_offsets m); lenN (dia_offsets m)] (dia_data m).
Proof.
  intros Hc Hc' Hm Hd H. destruct (written c c' t d (Dia m) z z' Hc Hc' Hm Hd H) as (new & -> & HF).
  apply (holds_found c' _ _ _ (array (lit "data") t d [lenN (dia_data m) / lenN (dia_offsets m); lenN (dia_offsets m)] (dia_data m)) HF); [ apply layout_names | cbn; auto 6 ].
Qed.
Lemma found_unique c a name t d o s vs d' o' s' vs' : found c a name t d o s vs -> found c a name t d' o' s' vs' -> d = d' /\ o = o' /\ s = s' /\ vs = vs'.
Proof.
  intros (f & H1 & H2 & H3 & H4 & H5) (f' & G1 & G2 & G3 & G4 & G5). assert (f = f') by congruence. subst f'. repeat split; congruence.
Qed.
Lemma dia_documented c c' t d m z z' : wf_cfg c -> wf_cfg c' -> matrix_ok (N.min (c_usize_max c) (c_usize_max c')) (Dia m) -> data_ok c c' t d (dia_data m) ->
  dia_write_npz c t m z = (Ok tt, z') ->
  found c' (nz_entries z') (lit "data") t d OrderC [lenN (dia_offsets m); lenN (dia_data m) / lenN (dia_offsets m)] (dia_data m) <->
  lenN (dia_data m) = lenN (dia_offsets m) * lenN (dia_offsets m).
Proof.
  intros Hc Hc' Hm Hd H. pose proof (dia_data_shape c c' t d m z z' Hc Hc' Hm Hd H) as Hf. destruct Hm as (_ & _ & _ & _ & len & L0 & L). rewrite L, N.div_mul in * by lia. split.
  - intros Hg. destruct (found_unique _ _ _ _ _ _ _ _ _ _ _ _ Hf Hg) as (_ & _ & Hs & _). injection Hs as Hs _. now rewrite Hs.
  - intros E. assert (len = lenN (dia_offsets m)) by nia. subst len. exact Hf.
Qed.
