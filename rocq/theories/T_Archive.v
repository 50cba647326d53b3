(** C50: sparse matrices in any archive; C29 from the bytes of a file. *)
From Verif Require Import M_Base M_Text M_TypeStr M_PyLit M_IO M_Header M_Read M_Serialize M_NpyReader M_Write M_Npz M_Sparse.
From Verif Require Import S_Text S_TypeStr S_Python S_DType S_Shape S_Header S_Elem S_Dict S_Open S_Reader S_Write S_Npz S_Sparse S_Archive P_Base P_Header P_Open P_Archive T_Elem T_Reader.
Open Scope N_scope.

(** C29: a whole file, from its bytes.  Opening it and reading all of it as values of type [t] gives these values (and this dtype, shape
    and order) exactly if the bytes are such a file. *)
Theorem C29_file_exact : forall c t bs d shape o vs, strings_fit (c_usize_max c) d -> bytes_ok bs ->
  (exists f cur, npy_new c (from_start bs) = (Ok f, cur) /\ h_dtype (nf_header f) = d /\ h_shape (nf_header f) = shape /\ h_order (nf_header f) = o
     /\ fst (npy_into_vec c t f) = Ok vs)
  <-> file_of c t bs d shape o vs.
Proof. exact whole_file. Qed.
Print Assumptions C29_file_exact.
Definition C29_bytes : bytes := npy_text "'>i2'" "(2, 2)" [0;1; 0;2; 255;255; 0;4; 99].
Example C29_file_case : bytes_ok C29_bytes
  /\ file_of le64 (RInt true W2) C29_bytes (DPlain {| ts_endianness := Big; ts_char := TInt; ts_size := 2; ts_units := None |}) [2; 2] OrderC [XInt 1; XInt 2; XInt (-1); XInt 4].
Proof.
  assert (B : bytes_ok C29_bytes) by (apply bytes_ok_dec; vm_compute; reflexivity). split; [ exact B | ].
  apply C29_file_exact; [ exact I | exact B | ]. do 2 eexists. split; [ vm_compute; reflexivity | ]. repeat (split; [ reflexivity | ]). vm_compute. reflexivity.
Qed.

(** C50: reading gives a matrix exactly if the archive represents it. *)
Theorem C50_reads_exactly : forall c t a m, entries_ok c a -> sparse_from_npz c t a = Ok m <-> represents c t a m.
Proof. exact dynamic_exact. Qed.
Print Assumptions C50_reads_exactly.
(** Each of the typed readers: the same, for its format only. *)
Theorem C50_typed_exactly : forall c t a f m, entries_ok c a -> read_as f c t a = Ok m <-> format_of m = f /\ represents c t a m.
Proof. exact typed_exact. Qed.
Print Assumptions C50_typed_exactly.
(** An archive represents at most one matrix. *)
Lemma represents_unique c t a m m' : entries_ok c a -> represents c t a m -> represents c t a m' -> m = m'.
Proof. intros Ha H H'. apply (dynamic_exact c t a m Ha) in H. apply (dynamic_exact c t a m' Ha) in H'. congruence. Qed.
Theorem C50_at_most_one : forall c t a m m', entries_ok c a -> represents c t a m -> represents c t a m' -> m = m'.
Proof. exact represents_unique. Qed.
Print Assumptions C50_at_most_one.
(** It panics exactly if opening a part panics, the parts before it being in order; everything else that is not a matrix is an error. *)
Theorem C50_panics_exactly : forall c t a, entries_ok c a -> sparse_from_npz c t a = Panic <-> exists f, panics_at c t a f.
Proof. exact dynamic_panic. Qed.
Print Assumptions C50_panics_exactly.
Theorem C50_typed_panics_exactly : forall c t a f, entries_ok c a -> read_as f c t a = Panic <-> panics_at c t a f.
Proof. exact typed_panic. Qed.
Print Assumptions C50_typed_panics_exactly.

(** An archive no writer of this library makes: an entry that is not an array, an older entry of the same name, other byte orders, a
    longer format field, 64-bit shape with 32-bit indices, a negative index, data in (one-dimensional) Fortran order, bytes left over. *)
Definition fortran_text (descr shape : string) (data : bytes) : bytes :=
  let txt := (lit "{'descr': " ++ lit descr ++ lit ", 'fortran_order': True, 'shape': " ++ lit shape ++ lit "}")%list in
  (0x93 :: lit "NUMPY" ++ [2; 0; lenN txt; 0; 0; 0] ++ txt ++ data)%list.
Definition foreign : archive :=
  [ (lit "readme.txt", [1; 2; 3]);
    (lit "row.npy", [0]);
    (lit "data.npy", fortran_text "'>f4'" "(2,)" [0;0;0;1; 0;0;0;2; 77]);
    (lit "col.npy", npy_text "'<i8'" "(2,)" [3;0;0;0;0;0;0;0; 255;255;255;255;255;255;255;255]);
    (lit "row.npy", npy_text "'>i4'" "(2,)" [0;0;0;5; 255;255;255;254]);
    (lit "shape.npy", npy_text "'>i8'" "(2,)" [0;0;0;0;0;0;0;9; 0;0;0;1;0;0;0;0]);
    (lit "format.npy", npy_text "'|S5'" "()" (lit "coo" ++ [0; 0])) ].

Fixpoint strings_fitb (m : N) (d : dtype) : bool :=
  match d with
  | DPlain t => match ts_char t with TByteStr | TRawData => 2 * ts_size t <=? m | _ => true end
  | DArray _ inner => strings_fitb m inner
  | DRecord fields => (fix go (fs : list (text * dtype)) : bool := match fs with [] => true | (_, ty) :: fs' => strings_fitb m ty && go fs' end) fields
  end.
Lemma strings_fit_dec m d : strings_fitb m d = true -> strings_fit m d.
Proof.
  induction d as [ ts | k d IH | fs IH ] using dtype_rect'; cbn [strings_fitb strings_fit].
  - destruct (ts_char ts); try exact (fun _ => I); lia.
  - exact IH.
  - induction IH as [ | (n, d) fs Hd _ IH ]; [ exact (fun _ => I) | ]. rewrite andb_true_iff. intros (H1 & H2). split; [ now apply Hd | now apply IH ].
Qed.
Lemma archive_dec c a : forallb (fun e : text * bytes => forallb (fun b => b <? 256) (snd e)
    && match fst (run (read_and_interpret c) (snd e)) with Ok h => strings_fitb (c_usize_max c) (h_dtype h) | _ => true end) a = true -> entries_ok c a.
Proof.
  intros H. apply Forall_forall. intros e He. rewrite forallb_forall in H. apply H in He. apply andb_true_iff in He as (Hb & Hs). apply bytes_ok_dec in Hb.
  split; [ exact Hb | ]. intros d shape o data (pre & txt & v & Hbs & Hp & Ht & Hy & Hno & Hc).
  destruct (from_parts_numbers c d shape o Hno Hc) as (h & _ & Hn).
  assert (E : run (read_and_interpret c) (snd e) = (Ok h, data)) by (apply open_exact; [ exact Hb | ]; exists pre, txt, v, d, shape, o; auto 10).
  rewrite E in Hs. cbn [fst] in Hs. destruct Hn as (<- & _). now apply strings_fit_dec.
Qed.
Example C50_case : entries_ok le64 foreign
  /\ represents le64 (RFloat F4) foreign (Coo {| coo_shape := (9, 2 ^ 32); coo_data := [XFloat 1; XFloat 2]; coo_row := [5; 2 ^ 64 - 2]; coo_col := [3; 2 ^ 64 - 1] |}).
Proof.
  assert (B : entries_ok le64 foreign) by (apply archive_dec; vm_compute; reflexivity). split; [ exact B | ].
  apply C50_reads_exactly; [ exact B | ]. vm_compute. reflexivity.
Qed.
(** Two-dimensional data in Fortran order does not represent a DIA matrix; the same in C order does. *)
Definition foreign_dia (data : bytes) : archive :=
  [ (lit "format.npy", npy_text "'|S3'" "()" (lit "dia")); (lit "shape.npy", npy_text "'<i4'" "(2,)" [2;0;0;0; 2;0;0;0]);
    (lit "offsets.npy", npy_text "'<i4'" "(1,)" [255;255;255;255]); (lit "data.npy", data) ].
Example C50_order_case :
  represents le64 (RInt false W1) (foreign_dia (npy_text "'|u1'" "(1, 2)" [7; 8])) (Dia {| dia_shape := (2, 2); dia_data := [XInt 7; XInt 8]; dia_offsets := [(-1)%Z] |})
  /\ (forall m, ~ represents le64 (RInt false W1) (foreign_dia (fortran_text "'|u1'" "(1, 2)" [7; 8])) m)
  /\ (forall m, ~ represents le64 (RInt false W1) (foreign_dia (npy_text "'|u1'" "(2,)" [7; 8])) m)
  /\ (forall m, ~ represents le64 (RInt false W1) (foreign_dia (npy_text "'|u1'" "(1, 2)" [7])) m)
  /\ (forall m, ~ represents le64 (RInt false W1) (foreign_dia (npy_text "'|i1'" "(1, 2)" [7; 8])) m).
Proof.
  split; [ apply C50_reads_exactly; [ apply archive_dec; vm_compute; reflexivity | vm_compute; reflexivity ] | ].
  repeat split; intros m H; (apply C50_reads_exactly in H; [ | apply archive_dec; vm_compute; reflexivity ]); vm_compute in H; discriminate.
Qed.
(** A shape whose product overflows, in the last part. *)
Example C50_panic_case : panics_at le64 (RInt false W1) (foreign_dia (npy_text "'|u1'" "(4294967296, 4294967296)" [])) FDia.
Proof. apply C50_typed_panics_exactly; [ apply archive_dec; vm_compute; reflexivity | vm_compute; reflexivity ]. Qed.
