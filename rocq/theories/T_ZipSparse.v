(** C87: sparse matrices in archives some entries of which cannot be opened. *)
From Verif Require Import M_Base M_Text M_TypeStr M_PyLit M_IO M_Header M_Read M_Serialize M_DTypeErr M_NpyReader M_Write M_Npz M_Sparse M_Zip M_ZipSparse.
From Verif Require Import S_Text S_TypeStr S_DType S_Shape S_Header S_Elem S_Open S_Npz S_Sparse S_Archive S_Defect S_Zip S_ZipSparse P_Base P_Zip P_ZipSparse T_Elem T_Reader T_Archive.
Open Scope N_scope.

(** * C87 *)
(** An array of the format that cannot be opened: zip's error is the result, if the arrays looked at before are those of some matrix;
    if not, what is wrong with them is, whatever else the archive holds. *)
Theorem C87_damaged : forall f c t a pre m post z, members f = pre ++ m :: post -> damaged a m z ->
  (forall b v, (forall n, In n pre -> same_entry a b n) -> zread_as f c t b = Ok v -> zread_as f c t a = Err (complaint z))
  /\ (zread_as f c t a = Err (complaint z) \/ forall b, (forall n, In n pre -> same_entry a b n) -> zread_as f c t b = zread_as f c t a).
Proof. exact z_damaged. Qed.
Print Assumptions C87_damaged.
(** A matrix that is read has no such array. *)
Theorem C87_read : forall f c t a v, zread_as f c t a = Ok v -> forall m z, In m (members f) -> ~ damaged a m z.
Proof. exact z_ok. Qed.
Print Assumptions C87_read.
(** Without such arrays the result is that of C41, C50 and C63, whatever other entries are like. *)
Theorem C87_intact : forall f c t a b, (forall n, In n (members f) -> (forall bs, last_entry a (n ++ lit ".npy") (inl bs) <-> entry b n bs) /\ forall z, ~ damaged a n z) ->
  zread_as f c t a = read_as f c t b.
Proof. exact z_intact. Qed.
Print Assumptions C87_intact.
(** Entries that are not arrays of the format play no part, nor do earlier entries of the same name. *)
Theorem C87_others : forall f c t a b, (forall n, In n (members f) -> same_entry a b n) -> zread_as f c t a = zread_as f c t b.
Proof. exact z_same. Qed.
Print Assumptions C87_others.
(** The reader that finds out the format itself. *)
Theorem C87_any : forall c t a v, zsparse_from_npz c t a = Ok v <-> zread_as (format_of v) c t a = Ok v.
Proof. exact any_ok. Qed.
Print Assumptions C87_any.
Theorem C87_any_damaged : forall f c t a b pre m post z v, members f = pre ++ m :: post -> damaged a m z ->
  (forall n, In n pre -> same_entry a b n) -> zsparse_from_npz c t b = Ok v -> format_of v = f -> zsparse_from_npz c t a = Err (complaint z).
Proof. exact any_damaged. Qed.
Print Assumptions C87_any_damaged.

(** The foreign archive of C50; the same with an array that zip cannot open behind it. *)
Definition C87_whole : zarchive := map (fun e => (fst e, inl (snd e))) foreign.
Definition C87_with (name : string) : zarchive := C87_whole ++ [(lit name ++ lit ".npy", inr (ZipUnsupported (lit "Password required to decrypt file")))].
Definition C87_text : err := EData (lit "Password required to decrypt file").
Lemma C87_unlike name n : eqb_list (lit name ++ lit ".npy") (n ++ lit ".npy") = false -> same_entry (C87_with name) C87_whole n.
Proof.
  intros E x. rewrite <- !zopen_exact. unfold C87_with. induction C87_whole as [ | (g, y) a IH ]; cbn [app zopen]; [ rewrite E; tauto | ].
  assert (K : zopen (n ++ lit ".npy") (a ++ [(lit name ++ lit ".npy", inr (ZipUnsupported (lit "Password required to decrypt file")))]) = zopen (n ++ lit ".npy") a); [ | rewrite K; tauto ].
  clear IH. induction a as [ | (g', y') a IH ]; cbn [app zopen]; [ now rewrite E | now rewrite IH ].
Qed.
Example C87_case :
  (exists v, zread_as FCoo le64 (RFloat F4) C87_whole = Ok v /\ zsparse_from_npz le64 (RFloat F4) C87_whole = Ok v /\ format_of v = FCoo)
  /\ members FCoo = [lit "format"; lit "shape"; lit "row"] ++ lit "col" :: [lit "data"]
  /\ damaged (C87_with "col") (lit "col") (ZipUnsupported (lit "Password required to decrypt file"))
  /\ (forall n, In n [lit "format"; lit "shape"; lit "row"] -> same_entry (C87_with "col") C87_whole n)
  /\ zread_as FCoo le64 (RFloat F4) (C87_with "col") = Err C87_text
  /\ zsparse_from_npz le64 (RFloat F4) (C87_with "format") = Err C87_text
  /\ (exists v, zsparse_from_npz le64 (RFloat F4) (C87_with "readme") = Ok v)
  /\ (exists msg, zread_as FCsr le64 (RFloat F4) (C87_with "data") = Err (EData msg) /\ EData msg <> C87_text).
Proof.
  split. { eexists. split; [ vm_compute; reflexivity | ]. split; vm_compute; reflexivity. }
  split; [ reflexivity | ].
  split. { apply zopen_exact. vm_compute. reflexivity. }
  split. { intros n [ <- | [ <- | [ <- | [] ] ] ]; apply C87_unlike; vm_compute; reflexivity. }
  split; [ vm_compute; reflexivity | ]. split; [ vm_compute; reflexivity | ]. split; [ eexists; vm_compute; reflexivity | ].
  eexists. split; [ vm_compute; reflexivity | vm_compute; discriminate ].
Qed.
