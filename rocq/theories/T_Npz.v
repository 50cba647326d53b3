(** C39, C40: archives of arrays. *)
From Coq Require Import Permutation.
From Verif Require Import M_Base M_Text M_TypeStr M_PyLit M_IO M_Header M_Read M_Serialize M_NpyReader M_Write M_Npz.
From Verif Require Import S_TypeStr S_DType S_Shape S_Header S_Elem S_Strings S_Reader S_Write S_Npz
  P_Base P_Text P_Header P_Sink P_Shape P_WriteHeader P_Writer P_WriteFile P_Session P_Whole P_Number P_Elem P_Codec P_Strings P_ElemT P_Npz T_Elem T_Reader T_Write.
Open Scope N_scope.

(** * C39: names *)
Theorem C39_round_trip : forall name, ~ In 0 name -> array_name_from_file_name (file_name_from_array_name name) = Some name.
Proof. exact name_round_trip. Qed.
Print Assumptions C39_round_trip.
(** Exactly which paths have which name: the name, the suffix, and then nothing or a NUL and anything. *)
Theorem C39_exact : forall path name, array_name_from_file_name path = Some name <->
  exists rest, path = name ++ lit ".npy" ++ rest /\ ~ In 0 name /\ (rest = [] \/ exists r, rest = 0 :: r).
Proof. exact name_exact. Qed.
Print Assumptions C39_exact.
Theorem C39_no_suffix : forall path, (forall name, path <> name ++ lit ".npy") -> ~ In 0 path -> array_name_from_file_name path = None.
Proof. exact no_suffix_no_name. Qed.
Print Assumptions C39_no_suffix.
Theorem C39_injective : forall a b, file_name_from_array_name a = file_name_from_array_name b -> a = b.
Proof. exact file_name_inj. Qed.
Print Assumptions C39_injective.
(** Numbered arrays ([arr_0.npy], ...) are the arrays of these names; different numbers give different names. *)
Theorem C39_index : forall i, file_name_from_index i = file_name_from_array_name (lit "arr_" ++ dec_z i)
  /\ array_name_from_file_name (file_name_from_index i) = Some (lit "arr_" ++ dec_z i)
  /\ forall j, file_name_from_index i = file_name_from_index j -> i = j.
Proof. exact index_names. Qed.
Print Assumptions C39_index.
(** The condition on NUL is needed. *)
Theorem C39_nul_refuted : exists name other, array_name_from_file_name (file_name_from_array_name name) = Some other /\ name <> other.
Proof. exists (lit "a.npy" ++ [0]), (lit "a"). split; [ reflexivity | discriminate ]. Qed.
Print Assumptions C39_nul_refuted.
Example C39_case : array_name_from_file_name (lit "a.npy.npy") = Some (lit "a.npy") /\ array_name_from_file_name (lit "a.np") = None
  /\ array_name_from_file_name (lit ".npy") = Some [] /\ array_name_from_file_name (lit "npy") = None
  /\ file_name_from_index (-12) = lit "arr_-12.npy" /\ file_name_from_index 10 = lit "arr_10.npy"
  /\ array_name_from_file_name (0x1F600 :: lit ".npy") = Some [0x1F600].
Proof. repeat split; reflexivity. Qed.

(** * C40: lookup *)
(** After saving any sequence of arrays to any archive (each writer finished or just dropped), a name leads to the last array saved under
    it, with its header and values, on any machine that can handle its dtype. *)
Theorem C40_lookup : forall c c' before x after z z', Forall is_array (before ++ x :: after) -> save_all c (before ++ x :: after) z = (Ok tt, z') ->
  ~ In (sv_name x) (map sv_name after) -> can_read c' x ->
  found c' (nz_entries z') (sv_name x) (sv_type x) (sv_dtype x) (sv_order x) (sv_shape x) (map (read_back (sv_type x) (sv_dtype x)) (sv_vals x))
  /\ (Forall (survives (sv_type x) (sv_dtype x)) (sv_vals x) ->
      found c' (nz_entries z') (sv_name x) (sv_type x) (sv_dtype x) (sv_order x) (sv_shape x) (sv_vals x)).
Proof. exact lookup_saved. Qed.
Print Assumptions C40_lookup.
(** Names that were not saved are what they were before: in a new archive, not found. *)
Theorem C40_other_names : forall c c' l z z' name, Forall is_array l -> save_all c l z = (Ok tt, z') -> ~ In name (map sv_name l) ->
  by_name c' (nz_entries z') name = by_name c' (nz_entries z) name.
Proof. exact lookup_other. Qed.
Print Assumptions C40_other_names.
Theorem C40_missing : forall c c' l z' name, Forall is_array l -> save_all c l npz_new = (Ok tt, z') -> ~ In name (map sv_name l) ->
  by_name c' (nz_entries z') name = Ok None.
Proof. exact lookup_missing. Qed.
Print Assumptions C40_missing.
(** The names listed are the names saved, each once. *)
Theorem C40_names : forall c l z', Forall is_array l -> save_all c l npz_new = (Ok tt, z') -> Forall (fun x => ~ In 0 (sv_name x)) l -> NoDup (map sv_name l) ->
  Permutation (array_names (nz_entries z')) (map sv_name l).
Proof. exact names_listed. Qed.
Print Assumptions C40_names.
(** Saving succeeds when the output does. *)
Theorem C40_succeeds : forall c l z, Forall is_array l -> Forall (can_write c) l -> nz_fuel z = None -> exists z', save_all c l z = (Ok tt, z').
Proof. exact save_all_succeeds. Qed.
Print Assumptions C40_succeeds.

Definition Z_list : list saved :=
  [ {| sv_name := lit "a"; sv_type := case_type; sv_dtype := case_dtype; sv_order := OrderFortran; sv_shape := [1; 2]; sv_vals := W_vals; sv_ending := Finished |};
    {| sv_name := lit "b.npy"; sv_type := RInt false W2; sv_dtype := plain Big TUint 2; sv_order := OrderC; sv_shape := [3]; sv_vals := [XInt 1; XInt 2; XInt 65535];
       sv_ending := Dropped |} ].
Example C40_case : exists z', save_all le64 Z_list npz_new = (Ok tt, z') /\ array_names (nz_entries z') = [lit "a"; lit "b.npy"]
  /\ found be64 (nz_entries z') (lit "a") case_type case_dtype OrderFortran [1; 2] W_vals
  /\ found le32 (nz_entries z') (lit "b.npy") (RInt false W2) (plain Big TUint 2) OrderC [3] [XInt 1; XInt 2; XInt 65535]
  /\ by_name le64 (nz_entries z') (lit "b") = Ok None.
Proof.
  eexists. split; [ vm_compute; reflexivity | ]. split; [ vm_compute; reflexivity | ].
  split; [ | split; [ | vm_compute; reflexivity ] ].
  all: unfold found; eexists; split; [ vm_compute; reflexivity | ]; split; [ reflexivity | ]; split; [ reflexivity | ]; split; [ reflexivity | ]; vm_compute; reflexivity.
Qed.
Example C40_case_ok : Forall is_array Z_list /\ Forall (can_write le64) Z_list /\ Forall (can_read be64) Z_list /\ NoDup (map sv_name Z_list) /\ Forall (fun x => ~ In 0 (sv_name x)) Z_list.
Proof.
  pose proof W_vals_ok as (V1 & V2 & V3 & V4 & V5 & V6 & V7). destruct case_ok as (Hwf & _). pose proof C20_case as (A1 & _).
  assert (A : forall dir, accepts usize64 dir case_type case_dtype) by (intros; cbn; repeat split; auto; try discriminate; try (vm_compute; discriminate)).
  assert (No : no_overflow [1; 2]) by (apply no_overflow_2; reflexivity). assert (No' : no_overflow [3]) by (apply no_overflow_1; reflexivity).
  assert (Wf2 : wf_dtype (plain Big TUint 2)) by wf_case.
  split; [ | split; [ | split; [ | split ] ] ].
  - constructor; [ | constructor; [ | constructor ] ]; unfold is_array; cbn [sv_dtype sv_type sv_vals sv_shape].
    + split; [ exact Hwf | ]. split; [ exact V1 | ]. split; [ repeat constructor | ]. split; [ exact No | reflexivity ].
    + split; [ exact Wf2 | ]. split; [ repeat constructor; cbn; lia | ]. split; [ repeat constructor | ]. split; [ exact No' | reflexivity ].
  - constructor; [ | constructor; [ | constructor ] ]; unfold can_write; cbn [sv_dtype sv_type sv_vals sv_shape].
    + split; [ exact I | ]. split; [ exact V6 | ]. split; [ apply A | ]. split; [ exact V3 | cbn; repeat split; try exact I; vm_compute; discriminate ].
    + split; [ exact I | ]. split; [ exact I | ]. split; [ cbn; auto; split; [ auto | discriminate ] | ]. split; [ repeat constructor; eexists; vm_compute; reflexivity | cbn; repeat split; try exact I; vm_compute; discriminate ].
  - constructor; [ | constructor; [ | constructor ] ]; unfold can_read; cbn [sv_dtype sv_type sv_vals sv_shape].
    + split; [ apply A | split; [ exact V4 | exact V6 ] ].
    + split; [ cbn; split; [ auto | discriminate ] | cbn; repeat split; try exact I; vm_compute; discriminate ].
  - repeat constructor; cbn; intuition discriminate.
  - repeat constructor; cbn; intuition discriminate.
Qed.
(** With a NUL in a name the listing does not match: here a name is listed that leads nowhere, and the saved one is not listed. *)
Theorem C40_nul_refuted : exists x z' other, is_array x /\ save_all le64 [x] npz_new = (Ok tt, z') /\ array_names (nz_entries z') = [other] /\ other <> sv_name x
  /\ (forall c, by_name c (nz_entries z') other = Ok None) /\ exists f, by_name le64 (nz_entries z') (sv_name x) = Ok (Some f).
Proof.
  exists {| sv_name := lit "a.npy" ++ [0]; sv_type := RInt false W2; sv_dtype := plain Big TUint 2; sv_order := OrderC; sv_shape := []; sv_vals := [XInt 1]; sv_ending := Finished |}.
  eexists _, (lit "a"). split.
  - unfold is_array. cbn [sv_dtype sv_type sv_vals sv_shape]. split; [ wf_case | ]. split; [ repeat constructor; cbn; lia | ]. split; [ constructor | ]. split; [ intros k; destruct k; split; reflexivity | reflexivity ].
  - split; [ vm_compute; reflexivity | ]. split; [ vm_compute; reflexivity | ]. split; [ discriminate | ]. split; [ intros c; vm_compute; reflexivity | ]. eexists. vm_compute. reflexivity.
Qed.
Print Assumptions C40_nul_refuted.
