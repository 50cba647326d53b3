(** C59. *)
From Verif Require Import M_Base M_Text M_TypeStr M_PyLit M_IO M_Header M_Read S_Text S_TypeStr S_TypeErr S_Python S_DType S_Shape S_Header S_Elem S_Dict S_Open S_Defect
  P_Base P_TypeErr P_Interp P_Open P_Defect T_Parse T_Open T_Reader T_TypeErr.
Open Scope N_scope.

(** C59: opening is refused with the first defect of the file, for all bytes and all machines. *)
Theorem C59_first_defect : forall c bs e, Forall (fun b => b < 256) bs ->
  (exists rest, run (read_and_interpret c) bs = (Err e, rest)) <-> file_defect c bs e.
Proof. exact first_defect. Qed.
Print Assumptions C59_first_defect.

(** A file has one first defect. *)
Theorem C59_one_defect : forall c bs e f, Forall (fun b => b < 256) bs -> file_defect c bs e -> file_defect c bs f -> e = f.
Proof. exact file_defect_unique. Qed.
Print Assumptions C59_one_defect.

(** Type descriptions on their own: [DType::from_descr], *)
Theorem C59_type_defect : forall v e, from_descr v = Err e <-> exists msg, e = EData msg /\ type_defect v msg.
Proof. exact type_defect_exact. Qed.
Print Assumptions C59_type_defect.
(** and [DType::parse]. *)
Theorem C59_parse_defect : forall src e, Forall (fun ch => scalar_value ch = true) src ->
  dtype_parse src = Err e <->
    (e = EData (lit "could not parse Python expression: ") /\ forall l v, src = l \/ src = l ++ [10] -> ~ python_literal l v)
    \/ exists l v msg, (src = l \/ src = l ++ [10]) /\ python_literal l v /\ type_defect v msg /\ e = EData msg.
Proof. exact parse_defect_exact. Qed.
Print Assumptions C59_parse_defect.

(** * Cases *)
Definition C59_file (txt : bytes) : bytes := 0x93 :: lit "NUMPY" ++ [2; 0] ++ [lenN txt; 0; 0; 0] ++ txt.
Ltac C59_run := apply first_defect; [ apply bytes_ok_dec; vm_compute; reflexivity | eexists; vm_compute; reflexivity ].
(** No magic string; version 4.1; cut in the length field. *)
Example C59_case_magic : file_defect C34_cfg (0x93 :: lit "NUMPX" ++ [1; 0; 2; 0]) (EData (lit "magic not found for NPY file")).
Proof. C59_run. Qed.
Example C59_case_version : file_defect C34_cfg (0x93 :: lit "NUMPY" ++ [4; 1; 2; 0]) (EData (lit "unsupported version: (4, 1)")).
Proof. C59_run. Qed.
Example C59_case_cut : file_defect C34_cfg (0x93 :: lit "NUMPY" ++ [2; 0; 2; 0]) EUnexpectedEof.
Proof. C59_run. Qed.
(** A shape with a negative axis after a good one, and a bad type string: the shape comes first. *)
Example C59_case_shape : file_defect C34_cfg (C59_file (lit "{'descr':'<f3','shape':(2,-1,'x'),'fortran_order':False}")) (EData (lit "dimension cannot be negative")).
Proof. C59_run. Qed.
(** The second field of the third field has an impossible size. *)
Example C59_case_type : file_defect C34_cfg
  (C59_file (lit "{'descr':[('a','<i2'),['b','|b1',(2,)],('c',[('d','<u4'),('e','<f3')]),5],'shape':[],'fortran_order':True}"))
  (EData (lit "invalid type string: Type string '<f3' has invalid size. Valid sizes are: [2, 4, 8, 16]")).
Proof. C59_run. Qed.
Example C59_case_key : file_defect C34_cfg (C59_file (lit "{'descr':'<f4','shape':(2,)}")) (EData (lit "dict is missing key 'fortran_order'")).
Proof. C59_run. Qed.
(** Derived from the specification alone: the header is a list. *)
Example C59_case_derivation : header_defect C34_cfg (VList [VString (lit "descr")]) (lit "expected a python dict literal").
Proof. constructor. discriminate. Qed.
Example C59_case_field : type_defect (VList [VTuple [VString (lit "a"); VString (lit "<i2"); VTuple [VInteger 3; VNone]]]) (lit "dimension must be an integer").
Proof.
  apply (type_field [] _ [] [] _); [ constructor | ]. eapply field_shape; [ now right | apply descr_exact; vm_compute; reflexivity | ].
  apply (shape_axis _ [VInteger 3] VNone [] [3]); [ now right | | constructor; discriminate ]. eexists. split; [ now left | ]. repeat constructor.
Qed.
