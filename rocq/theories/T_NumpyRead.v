(** C78: what NumPy makes of the files npyz writes; files that both read. *)
From Verif Require Import M_Base M_Text M_TypeStr M_PyLit M_IO M_Header M_Read M_Serialize M_NpyReader M_Write M_Own
  S_Text S_TypeStr S_Python S_DType S_Shape S_Header S_Elem S_Write S_Dict S_DText S_File S_Open S_Numpy S_NumpyRead
  P_Base P_IO P_Header P_File P_NumpyRead T_Elem T_Reader T_TestData T_Own T_Numpy.
Open Scope N_scope.

(** Every file written from provided types and structs is loaded, with the same dtype (but for byte order marks that mean nothing), order, shape and data. *)
Theorem C78_written : forall c t d o h vs s s', wf_dtype d -> Forall (has_type t) vs -> lenN vs < 2 ^ 64 -> hint_ok h -> rust_names t -> sk_data s = [] -> sk_pos s = 0 ->
  write_file c t d o h (output_kind h) vs s = (Ok tt, s') ->
  exists shape payload, final_shape h o (lenN vs) = Some shape /\ encodings t d vs payload
  /\ (exists major src nd fortran, np_loads major src nd fortran shape payload (sk_data s'))
  /\ forall major src nd fortran shape' data, np_loads major src nd fortran shape' data (sk_data s') ->
       np_meaning nd = normal d /\ np_order fortran = o /\ shape' = shape /\ data = payload.
Proof. exact structs_load. Qed.
Print Assumptions C78_written.
(** The same for every finished file, whoever wrote the items (a caller's own type may write any dtype): what NumPy loads is what was meant. *)
Theorem C78_same : forall d o h shape payload file major src nd fortran shape' data, wf_dtype d -> finished_file d o h shape payload file ->
  np_loads major src nd fortran shape' data file ->
  np_meaning nd = normal d /\ np_order fortran = o /\ shape' = shape /\ data = payload /\ distinct_names d /\ named d /\ no_null d.
Proof. exact written_exact. Qed.
Print Assumptions C78_same.
(** Which finished files it loads: those in whose records the names are distinct and without null characters. *)
Theorem C78_exactly : forall d o h shape payload file, wf_dtype d -> finished_file d o h shape payload file -> named d ->
  (exists major src nd fortran shape' data, np_loads major src nd fortran shape' data file) <-> distinct_names d /\ no_null d.
Proof. exact loads_exactly. Qed.
Print Assumptions C78_exactly.
(** Any file, whoever made it, that both NumPy loads and npyz opens means the same to both, in version 3 or with an ASCII header (see C77 for the others). *)
Theorem C78_agree : forall c major src nd fortran shape data file h rest, Forall (fun b => b < 256) file -> np_loads major src nd fortran shape data file ->
  (major = 3 \/ Forall (fun ch => ch < 128) src) -> run (read_and_interpret c) file = (Ok h, rest) ->
  normal (h_dtype h) = np_meaning nd /\ h_shape h = shape /\ h_order h = np_order fortran /\ rest = data.
Proof. exact both_read. Qed.
Print Assumptions C78_agree.
(** The marks that [normal] removes mean nothing: the bytes of every item are the same, and mean the same. *)
Theorem C78_marks : forall u dir t d, accepts u dir t d -> size (normal d) = size d
  /\ (forall v, encode t (normal d) v = encode t d v) /\ (forall bs, lenN bs = size d -> bytes_ok bs -> decode t (normal d) bs = decode t d bs).
Proof. intros u dir t d H. split; [ apply normal_size | ]. split; [ intros v; eapply normal_encode; eauto | intros bs; eapply normal_decode; eauto ]. Qed.
Print Assumptions C78_marks.

(** The description is not too narrow: NumPy reads what NumPy writes (records without titles and padding), null characters and all, since repr escapes them. *)
Theorem C78_numpy_round : forall printable major nd fortran shape data file, np_ok nd -> np_regular nd -> np_file printable major nd fortran shape data file ->
  exists src, np_loads major src nd fortran shape data file.
Proof. exact numpy_round. Qed.
Print Assumptions C78_numpy_round.

(** * Examples *)
(** A record with an array member, a one-byte integer with a superfluous mark and a name with a quote and a letter beyond ASCII; Fortran order, growing. *)
Definition C78_t := RStruct [(lit "a", RArray 2 (RInt true W2)); ([39; 0xe9], RInt false W1)].
Definition C78_d := DRecord [(lit "a", DArray 2 (plain Big TInt 2)); ([39; 0xe9], plain Little TUint 1)].
Definition C78_vals := [XRec [XSeq [XInt 1; XInt (-2)]; XInt 7]; XRec [XSeq [XInt 3; XInt 4]; XInt 255]].
Example C78_case : wf_dtype C78_d /\ Forall (has_type C78_t) C78_vals /\ rust_names C78_t /\ hint_ok (TwoDimensional 1)
  /\ fst (write_file le64 C78_t C78_d OrderFortran (TwoDimensional 1) true C78_vals empty_sink) = Ok tt
  /\ distinct_names C78_d /\ named C78_d /\ no_null C78_d
  /\ normal C78_d = DRecord [(lit "a", DArray 2 (plain Big TInt 2)); ([39; 0xe9], plain Irrelevant TUint 1)].
Proof.
  split; [ wf_case | ]. split; [ repeat constructor; cbn; repeat constructor; lia | ].
  assert (N : NoDup [lit "a"; [39; 0xe9]]) by (repeat constructor; cbn; intuition discriminate).
  split; [ cbn; repeat split; auto; repeat constructor; try discriminate; cbn; intuition discriminate | ]. split; [ reflexivity | ]. split; [ vm_compute; reflexivity | ].
  split; [ cbn; auto | ]. split; [ cbn; repeat split; repeat constructor; discriminate | ]. split; [ cbn; repeat split; repeat constructor; cbn; intuition discriminate | reflexivity ].
Qed.
(** A file of /repo/test-data: NumPy and npyz read the same (C78_agree applies). *)
Example C78_real : exists src, np_loads 1 src abc false [2] (dropN 112 file_structured) file_structured
  /\ match run (read_and_interpret le64) file_structured with
     | (Ok h, rest) => normal (h_dtype h) = np_meaning abc /\ h_shape h = [2] /\ h_order h = OrderC /\ rest = dropN 112 file_structured
     | _ => False
     end.
Proof.
  destruct C77_real_structured as (Hf & Hok & _). destruct (C78_numpy_round any 1 abc false [2] _ _ Hok ltac:(np_easy; repeat constructor; cbn; intuition discriminate) Hf) as (src & H).
  exists src. split; [ exact H | ]. vm_compute. repeat (split; [ reflexivity | ]). reflexivity.
Qed.

(** * Files that npyz writes and reads and NumPy does not *)
Definition C78_every_file : Prop := forall V c (se : own_serialize V) d o h vs s', wf_dtype d -> hint_ok h ->
  own_write_file c se d o h (output_kind h) vs empty_sink = (Ok tt, s') ->
  exists major src nd fortran shape data, np_loads major src nd fortran shape data (sk_data s').
(** A null character in a name (npyz's printer leaves it as it is), or one name twice. *)
Definition C78_null := DRecord [([97; 0], plain Little TInt 4)].
Definition C78_twice := DRecord [(lit "a", plain Little TInt 4); (lit "a", plain Little TInt 4)].
Definition C78_struct (d : dtype) : rty := match d with DRecord fs => RStruct (map (fun f => (fst f, RInt true W4)) fs) | _ => RBool end.
Lemma C78_unloadable d : d = C78_null \/ d = C78_twice -> exists s', wf_dtype d /\ own_write_file le64 (provided_serialize le64 (C78_struct d)) d OrderC OneDimensional true [] empty_sink = (Ok tt, s')
  /\ (exists h rest, run (read_and_interpret le64) (sk_data s') = (Ok h, rest) /\ h_dtype h = d)
  /\ forall major src nd fortran shape data, ~ np_loads major src nd fortran shape data (sk_data s').
Proof.
  intros Hd. assert (W : wf_dtype d) by (destruct Hd as [ -> | -> ]; wf_case).
  destruct (write_file le64 (C78_struct d) d OrderC OneDimensional true [] empty_sink) as (r, s') eqn:E. assert (r = Ok tt) as -> by (destruct Hd as [ -> | -> ]; vm_compute in E; congruence).
  exists s'. split; [ exact W | ]. rewrite C75_same_writing. split; [ exact E | ]. split.
  - destruct Hd as [ -> | -> ]; vm_compute in E; apply pair_inj in E as (_ & <-); eexists _, _; (split; [ vm_compute; reflexivity | vm_compute; reflexivity ]).
  - destruct (file_exact le64 (C78_struct d) d OrderC OneDimensional [] empty_sink s' W (Forall_nil _) ltac:(reflexivity) I E) as (shape & payload & file & _ & _ & Hf & Hp).
    assert (F : sk_data s' = file).
    { unfold placed in Hp. rewrite Hp. change (0 - lenN (@nil N)) with 0. change (repeatN 0 0) with (@nil N). unfold takeN, dropN. cbn [sk_data empty_sink sk_pos]. rewrite firstn_nil, skipn_nil. now rewrite app_nil_r. }
    rewrite F. intros major src nd fortran shape' data HL. destruct (C78_same _ _ _ _ _ _ _ _ _ _ _ _ W Hf HL) as (_ & _ & _ & _ & A & _ & B). destruct Hd as [ -> | -> ].
    + destruct B as (B & _). apply Forall_inv in B. apply B. cbn. auto.
    + destruct A as (A & _). inversion A as [ | ? ? A1 ]; subst. apply A1. now left.
Qed.
Theorem C78_every_file_refuted : ~ C78_every_file
  /\ forall d, d = C78_null \/ d = C78_twice -> exists s', own_write_file le64 (provided_serialize le64 (C78_struct d)) d OrderC OneDimensional true [] empty_sink = (Ok tt, s')
     /\ (exists h rest, run (read_and_interpret le64) (sk_data s') = (Ok h, rest) /\ h_dtype h = d)
     /\ forall major src nd fortran shape data, ~ np_loads major src nd fortran shape data (sk_data s').
Proof.
  split.
  - intros H. destruct (C78_unloadable C78_null (or_introl eq_refl)) as (s' & W & E & _ & X). destruct (H _ _ _ _ _ OneDimensional _ _ W I E) as (? & ? & ? & ? & ? & ? & HL). exact (X _ _ _ _ _ _ HL).
  - intros d Hd. destruct (C78_unloadable d Hd) as (s' & _ & X). eauto.
Qed.
Print Assumptions C78_every_file_refuted.
