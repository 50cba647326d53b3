(** C74: the derive macros. *)
From Verif Require Import M_Base M_Text M_TypeStr M_IO M_Header M_Read M_Serialize M_Derive.
From Verif Require Import S_Text S_TypeStr S_DType S_Shape S_Header S_Elem S_Strings S_Derive P_Base P_Elem P_Derive T_Elem.
Open Scope N_scope.

(** Which declarations the macros take: structs with named fields or without fields. *)
Theorem C74_items : forall i, (derive_deserialize i = MacroPanics <-> match di_data i with Enum | Union | StructTuple (_ :: _) => True | _ => False end)
  /\ (derive_serialize i = MacroPanics <-> derive_deserialize i = MacroPanics) /\ (derive_auto_serialize i = MacroPanics <-> derive_deserialize i = MacroPanics).
Proof.
  intros (p, d). unfold derive_deserialize, derive_serialize, derive_auto_serialize. cbn [di_data di_params].
  destruct d as [ fs | [ | ] | | | ]; cbn [fields_extract]; destruct (negb (p =? 0)); try (destruct (resolve_read _)); try (destruct (resolve_write _ _)); repeat split; intros H; try exact I; try discriminate; try reflexivity; try contradiction.
Qed.
Print Assumptions C74_items.
(** Of these, what [derive(Deserialize)] generates is accepted exactly if there are no generic parameters, and no field but the last is called
    [reader] or [func]; [derive(Serialize)] asks only for the former, and [derive(AutoSerialize)] for nothing. *)
Theorem C74_deserialize_partial : forall p d fields, legal d fields ->
  (exists rc, derive_deserialize {| di_params := p; di_data := d |} = Derived rc) <-> p = 0 /\ names_free fields.
Proof. exact read_accepted. Qed.
Print Assumptions C74_deserialize_partial.
Theorem C74_serialize_partial : forall p d fields, legal d fields -> (exists wc, derive_serialize {| di_params := p; di_data := d |} = Derived wc) <-> p = 0.
Proof. exact write_accepted. Qed.
Print Assumptions C74_serialize_partial.
(** The generated code is what the other theorems take it to be: the struct type with these names, without r#, and these types, in this order.
    No [unwrap] in it fails.  The readers: *)
Theorem C74_reader : forall c p d fields rc dt, legal d fields -> derive_deserialize {| di_params := p; di_data := d |} = Derived rc ->
  (forall rs, run_reader c rc dt = Ok (DOk rs) <-> reader c (RStruct fields) dt = DOk (RdStruct rs))
  /\ (forall e, run_reader c rc dt = Ok (DErr e) <-> reader c (RStruct fields) dt = DErr e) /\ run_reader c rc dt <> Panic
  /\ (forall rs input, run_reader c rc dt = Ok (DOk rs) -> run (run_read_one c rc rs) input = run (read_one c (RdStruct rs)) input).
Proof.
  intros c p d fields rc dt Hl H. rewrite (run_reader_exact c p d fields rc Hl H). 
  assert (K : forall rs, Ok (inner_readers (reader c (RStruct fields) dt)) = Ok (DOk rs) <-> reader c (RStruct fields) dt = DOk (RdStruct rs)).
  { intros rs. rewrite reader_struct. destruct (extract_field_dtypes _ _); [ | split; discriminate ]. cbn [dbind]. destruct (readers c fields a); cbn [dbind inner_readers]; split; congruence. }
  split; [ exact K | ]. split; [ | split; [ discriminate | ] ].
  - intros e. rewrite reader_struct. destruct (extract_field_dtypes _ _); [ | split; cbn; congruence ]. cbn [dbind]. destruct (readers c fields a); cbn [dbind inner_readers]; split; congruence.
  - intros rs input Hr. apply K in Hr. eapply run_read_one_exact; eauto.
Qed.
Print Assumptions C74_reader.
(** The writers: *)
Theorem C74_writer : forall c p fs fields wc dt, legal (StructNamed fs) fields -> derive_serialize {| di_params := p; di_data := StructNamed fs |} = Derived wc ->
  (forall ws, run_writer c wc dt = Ok (DOk ws) <-> writer c (RStruct fields) dt = DOk (WrStruct ws))
  /\ (forall e, run_writer c wc dt = Ok (DErr e) <-> writer c (RStruct fields) dt = DErr e) /\ run_writer c wc dt <> Panic
  /\ (forall ws l, run_writer c wc dt = Ok (DOk ws) -> List.length l = List.length fields -> run_write_one c (map fst fs) wc ws l = write_one c (WrStruct ws) (XRec l)).
Proof.
  intros c p fs fields wc dt Hl H. rewrite (run_writer_exact c p _ fields wc Hl H). 
  assert (K : forall ws, Ok (inner_writers (writer c (RStruct fields) dt)) = Ok (DOk ws) <-> writer c (RStruct fields) dt = DOk (WrStruct ws)).
  { intros ws. rewrite writer_struct. destruct (extract_field_dtypes _ _); [ | split; discriminate ]. cbn [dbind]. destruct (writers c fields a); cbn [dbind inner_writers]; split; congruence. }
  split; [ exact K | ]. split; [ | split; [ discriminate | ] ].
  - intros e. rewrite writer_struct. destruct (extract_field_dtypes _ _); [ | split; cbn; congruence ]. cbn [dbind]. destruct (writers c fields a); cbn [dbind inner_writers]; split; congruence.
  - intros ws l Hr L. apply K in Hr. eapply run_write_one_exact; eauto.
Qed.
Print Assumptions C74_writer.
(** The default dtype: *)
Theorem C74_auto : forall c p d fields, legal d fields -> exists fs, derive_auto_serialize {| di_params := p; di_data := d |} = Derived fs
  /\ default_dtype c (RStruct fields) = match run_auto c fs with Some r => Some (let* l := r in Ok (DRecord l)) | None => None end.
Proof. intros c p d fields Hl. exists fields. split; [ now apply auto_exact | apply run_auto_exact ]. Qed.
Print Assumptions C74_auto.
(** So what the generated writer writes, the generated reader reads: every member is found again under its name. *)
Theorem C74_round_trip : forall c c' p fs fields rc wc dt ws rs l out rest, legal (StructNamed fs) fields ->
  derive_deserialize {| di_params := p; di_data := StructNamed fs |} = Derived rc -> derive_serialize {| di_params := p; di_data := StructNamed fs |} = Derived wc ->
  wf_dtype dt -> strings_fit (c_usize_max c') dt -> has_type (RStruct fields) (XRec l) -> survives (RStruct fields) dt (XRec l) ->
  run_writer c wc dt = Ok (DOk ws) -> run_reader c' rc dt = Ok (DOk rs) -> run_write_one c (map fst fs) wc ws l = (out, Ok tt) ->
  encode (RStruct fields) dt (XRec l) = Some out /\ run (run_read_one c' rc rs) (out ++ rest) = (Ok (XRec l), rest).
Proof.
  intros c c' p fs fields rc wc dt ws rs l out rest Hl Hr Hw Hwf Hs Ht Hv Ew Er Eo.
  destruct (C74_reader c' p _ fields rc dt Hl Hr) as (R1 & _ & _ & R2). destruct (C74_writer c p fs fields wc dt Hl Hw) as (W1 & _ & _ & W2).
  assert (L : List.length l = List.length fields).
  { clear - Ht. cbn [has_type] in Ht. revert l Ht. induction fields as [ | (n, t) fields IH ]; intros [ | x l ] Ht; try contradiction; [ reflexivity | ]. cbn [List.length]. f_equal. apply IH. apply Ht. }
  rewrite (W2 ws l Ew L) in Eo. rewrite (R2 rs _ Er). apply W1 in Ew. apply R1 in Er. split; [ eapply C17_written; eauto | ].
  eapply C18_read_written_same with (w := WrStruct ws); eauto.
Qed.
Print Assumptions C74_round_trip.

(** A struct with a raw identifier, and with [reader] in the last place.  Its fields are called type and reader. *)
Definition C74_struct : item_data := StructNamed [(lit "r#type", RInt false W1); (lit "reader", RInt true W2)].
Definition C74_fields : list (text * rty) := [(lit "type", RInt false W1); (lit "reader", RInt true W2)].
Definition C74_dtype : dtype := DRecord [(lit "type", plain Irrelevant TUint 1); (lit "reader", plain Big TInt 2)].
Ltac not_in := intros H; cbn in H; repeat (destruct H as [ H | H ]; [ discriminate | ]); exact H.
Ltac legal_case := split; [ repeat (constructor; [ split; [ split; [ not_in | first [ left; reflexivity | right; reflexivity ] ] | reflexivity ] | ]); constructor | repeat (constructor; [ not_in | ]); constructor ].
Example C74_case : legal C74_struct C74_fields /\ exists rc wc rs ws,
  derive_deserialize {| di_params := 0; di_data := C74_struct |} = Derived rc /\ derive_serialize {| di_params := 0; di_data := C74_struct |} = Derived wc
  /\ run_reader le64 rc C74_dtype = Ok (DOk rs) /\ run_writer be64 wc C74_dtype = Ok (DOk ws)
  /\ run_write_one be64 [lit "r#type"; lit "reader"] wc ws [XInt 7; XInt 258] = ([7; 1; 2], Ok tt) /\ run (run_read_one le64 rc rs) [7; 1; 2; 9] = (Ok (XRec [XInt 7; XInt 258]), [9])
  /\ run_reader le64 rc (DRecord [(lit "r#type", plain Irrelevant TUint 1); (lit "reader", plain Big TInt 2)]) = Ok (DErr (WrongFields [lit "r#type"; lit "reader"] [lit "type"; lit "reader"])).
Proof.
  split; [ legal_case | ]. eexists _, _, _, _. split; [ vm_compute; reflexivity | ]. split; [ vm_compute; reflexivity | ]. split; [ vm_compute; reflexivity | ].
  split; [ vm_compute; reflexivity | ]. split; [ vm_compute; reflexivity | ]. split; vm_compute; reflexivity.
Qed.
(** A tuple struct and a unit struct without fields are records without fields. *)
Example C74_empty : derive_auto_serialize {| di_params := 3; di_data := StructTuple [] |} = Derived [] /\ legal (StructTuple []) [] /\ legal StructUnit []
  /\ derive_auto_serialize {| di_params := 0; di_data := StructTuple [RBool] |} = MacroPanics.
Proof. split; [ reflexivity | ]. split; [ split; [ reflexivity | constructor ] | ]. split; [ split; [ reflexivity | constructor ] | reflexivity ]. Qed.
(** The documentation has "it is enough to derive on a struct" whose fields implement the traits (derive/src/lib.rs:6-8).  It is not, if a field before
    the last is called [reader] (raw or not) or [func], or if the struct is generic. *)
Theorem C74_any_struct_refuted : exists d fields, legal d fields
  /\ derive_deserialize {| di_params := 0; di_data := d |} = Rejected
  /\ (exists wc, derive_serialize {| di_params := 0; di_data := d |} = Derived wc) /\ derive_serialize {| di_params := 1; di_data := d |} = Rejected.
Proof.
  exists (StructNamed [(lit "reader", RBool); (lit "x", RBool)]), [(lit "reader", RBool); (lit "x", RBool)]. split; [ legal_case | ]. split; [ vm_compute; reflexivity | ]. split; [ | reflexivity ].
  eexists. vm_compute. reflexivity.
Qed.
Print Assumptions C74_any_struct_refuted.
Example C74_names : let test (n : text) := derive_deserialize {| di_params := 0; di_data := StructNamed [(lit "a", RBool); (n, RInt true W8); (lit "z", RBool)] |} in
  test (lit "func") = Rejected /\ test (lit "r#reader") = Rejected /\ (exists rc, test (lit "readers") = Derived rc) /\ (exists rc, test (lit "method") = Derived rc) /\ (exists rc, test (lit "w") = Derived rc)
  /\ exists rc, derive_deserialize {| di_params := 0; di_data := StructNamed [(lit "a", RBool); (lit "func", RBool)] |} = Derived rc.
Proof. cbn zeta. split; [ vm_compute; reflexivity | ]. split; [ vm_compute; reflexivity | ]. repeat split; eexists; vm_compute; reflexivity. Qed.
