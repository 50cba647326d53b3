(** C85: looking up a name in any archive. *)
From Verif Require Import M_Base M_Text M_TypeStr M_PyLit M_IO M_Header M_Read M_Serialize M_DTypeErr M_NpyReader M_Write M_Npz M_Zip.
From Verif Require Import S_Text S_TypeStr S_DType S_Shape S_Header S_Elem S_Strings S_Open S_Archive S_Defect S_Zip.
From Verif Require Import P_Base P_Header P_Archive P_Zip T_Text T_Elem T_Reader T_Archive T_Broken.
Open Scope N_scope.

(** There is nothing exactly if no entry has the array's file name. *)
Theorem C85_missing : forall c a name, zby_name c a name = Ok None <-> ~ In (name ++ lit ".npy") (map fst a).
Proof. exact z_none. Qed.
Print Assumptions C85_missing.
(** An array is read exactly if the last entry of that name can be opened and its bytes are a file of it. *)
Theorem C85_read : forall c a name t d o shape vs, readable_by c a name ->
  (exists f, zby_name c a name = Ok (Some f) /\ h_dtype (nf_header f) = d /\ h_order (nf_header f) = o /\ h_shape (nf_header f) = shape /\ fst (npy_into_vec c t f) = Ok vs)
  <-> exists bs, last_entry a (name ++ lit ".npy") (inl bs) /\ file_of c t bs d shape o vs.
Proof. exact z_read. Qed.
Print Assumptions C85_read.
(** The error: what [zip] says of the last entry of that name, or the first defect of its bytes. *)
Theorem C85_error : forall c a name e, readable_by c a name ->
  zby_name c a name = Err e <-> (exists bs, last_entry a (name ++ lit ".npy") (inl bs) /\ file_defect c bs e) \/ exists z, last_entry a (name ++ lit ".npy") (inr z) /\ e = complaint z.
Proof. exact z_err. Qed.
Print Assumptions C85_error.
Theorem C85_panic : forall c a name, readable_by c a name -> zby_name c a name = Panic <-> exists bs, last_entry a (name ++ lit ".npy") (inl bs) /\ file_panics c bs.
Proof. exact z_panic. Qed.
Print Assumptions C85_panic.
(** The names listed, in any archive. *)
Theorem C85_names : forall a name, In name (zarray_names a) <-> exists path, In path (map fst a) /\ counts_as path name.
Proof. exact z_names. Qed.
Print Assumptions C85_names.
(** Without NUL characters in the file names: each name once, and exactly those under which there is something. *)
Theorem C85_listed : forall c a, Forall (fun e => ~ In 0 (fst e)) a -> NoDup (zarray_names a) /\ forall name, In name (zarray_names a) <-> zby_name c a name <> Ok None.
Proof. exact z_listed. Qed.
Print Assumptions C85_listed.
(** The archives of C40 and the others are those all of whose entries can be opened. *)
Theorem C85_plain : forall c a name, zby_name c (map (fun e => (fst e, inl (snd e))) a) name = by_name c a name.
Proof. exact z_plain. Qed.
Print Assumptions C85_plain.
(** With NUL characters names are listed twice, or though there is nothing under them. *)
Theorem C85_listed_refuted : exists a name, zarray_names a = [name; name] /\ ~ In 0 name /\ forall c, zby_name c a name = Ok None.
Proof.
  exists [(lit "a.npy" ++ [0], inl []); (lit "a.npy" ++ [0; 1], inl [])], (lit "a"). split; [ reflexivity | ]. split; [ intros [ H | [] ]; discriminate H | ]. intros c. reflexivity.
Qed.
Print Assumptions C85_listed_refuted.
(** A text, an encrypted array, an array and a newer one of its name, and an array of which [zip] cannot find the beginning. *)
Definition C85_archive : zarchive :=
  [ (lit "readme.txt", inl (lit "hello")); (lit "e.npy", inr (ZipUnsupported (lit "Password required to decrypt file"))); (lit "a.npy", inl (C63_bools 9)); (lit "a.npy", inl (npy_text "'|b1'" "(2,)" [1; 0]));
    (lit "x.npy", inr (ZipIo EUnexpectedEof)); (lit "y.npy", inl (lit "nonsense")) ].
Example C85_case : zarray_names C85_archive = [lit "e"; lit "a"; lit "x"; lit "y"]
  /\ (exists f, zby_name le64 C85_archive (lit "a") = Ok (Some f) /\ h_shape (nf_header f) = [2] /\ fst (npy_into_vec le64 RBool f) = Ok [XBool true; XBool false])
  /\ zby_name le64 C85_archive (lit "e") = Err (EData (lit "Password required to decrypt file")) /\ zby_name le64 C85_archive (lit "x") = Err EUnexpectedEof
  /\ (exists e, zby_name le64 C85_archive (lit "y") = Err e) /\ zby_name le64 C85_archive (lit "readme") = Ok None /\ zby_name le64 C85_archive (lit "readme.txt") = Ok None
  /\ Forall (fun e => ~ In 0 (fst e)) C85_archive /\ readable_by le64 C85_archive (lit "a") /\ readable_by le64 C85_archive (lit "y") /\ readable_by le64 C85_archive (lit "e").
Proof.
  split; [ reflexivity | ]. split; [ eexists; split; [ vm_compute; reflexivity | ]; split; [ reflexivity | vm_compute; reflexivity ] | ]. split; [ reflexivity | ]. split; [ reflexivity | ].
  split; [ eexists; vm_compute; reflexivity | ]. split; [ reflexivity | ]. split; [ reflexivity | ].
  split; [ repeat (constructor; [ cbn; intros H; repeat (destruct H as [ H | H ]; [ discriminate H | ]); destruct H | ]); constructor | ].
  assert (HD : forall name x, zopen (name ++ lit ".npy") C85_archive = Some x -> match x with inl bs => entries_ok le64 [(lit "x", bs)] | inr _ => True end -> readable_by le64 C85_archive name).
  { intros name x Hx Hok bs H. apply zopen_exact in H. rewrite Hx in H. injection H as ->. now apply Forall_cons_iff in Hok as (Hok & _). }
  split; [ apply (HD _ (inl (npy_text "'|b1'" "(2,)" [1; 0]))); [ vm_compute; reflexivity | ]; cbn iota; apply archive_dec; vm_compute; reflexivity | ].
  split; [ apply (HD _ (inl (lit "nonsense"))); [ vm_compute; reflexivity | ]; cbn iota; apply archive_dec; vm_compute; reflexivity | ].
  apply (HD _ (inr (ZipUnsupported (lit "Password required to decrypt file")))); [ vm_compute; reflexivity | exact I ].
Qed.
