(** Proofs for C83: what is left behind is refused with an error. *)
From Verif Require Import M_Base M_Text M_TypeStr M_PyLit M_IO M_Header M_Read M_Serialize M_NpyReader M_Write M_Npz M_Sparse.
From Verif Require Import S_Text S_TypeStr S_DType S_Shape S_Header S_Elem S_Strings S_Write S_Open S_Archive S_Npz S_Sparse S_SparseOut S_Stopped.
From Verif Require Import P_Base P_IO P_Codec P_Open P_Archive P_Stopped.
Require Import ZifyBool ZifyNat ZifyN.
Open Scope N_scope.

Lemma prefix_no_panic c p q : mild c (p ++ q) -> ~ file_panics c p.
Proof.
  intros (Hb & h & data & E & _) Hp. apply Forall_app in Hb as (Hb & _). apply open_panic_exact in Hp; [ | exact Hb ]. pose proof (run_prefix (read_and_interpret c) p q) as HP.
  destruct (run (read_and_interpret c) p) as (x, rest). cbn [fst] in Hp. subst x. rewrite E in HP. discriminate HP.
Qed.
Lemma prefix_fits c p q d shape o data : mild c (p ++ q) -> file_header c p d shape o data -> strings_fit (c_usize_max c) d.
Proof.
  intros (Hb & h & rest & E & Hs) (pre & txt & v & Hbs & Hp & Ht & Hsy & Hnm & Hc). apply Forall_app in Hb as (Hb & _). destruct (from_parts_numbers c d shape o Hnm Hc) as (h' & Hfp & Hnum).
  assert (E' : run (read_and_interpret c) p = (Ok h', data)) by (apply open_exact; [ auto | ]; exists pre, txt, v, d, shape, o; auto 10).
  pose proof (run_prefix (read_and_interpret c) p q) as HP. rewrite E', E in HP. apply pair_inj in HP as (HP & _). apply Ok_inj in HP. subst h'. destruct Hnum as (<- & _). exact Hs.
Qed.
Lemma refused c c' t d t' m n r z' : wf_cfg c -> wf_cfg c' -> numbers_ok (c_usize_max c) m -> data_writable c t d (data_of m) -> no_overflow (data_shape m) ->
  sizes_fit (c_usize_max c') d -> strings_fit (c_usize_max c') d ->
  sparse_write_npz c t m {| nz_entries := []; nz_fuel := Some n |} = (r, z') -> r <> Ok tt ->
  (forall f, exists e, read_as f c' t' (nz_entries z') = Err e) /\ exists e, sparse_from_npz c' t' (nz_entries z') = Err e.
Proof.
  intros Hc Hc' Hm Hd Hno Hsz Hst H Hr. pose proof (left_mild c c' t d m n r z' Hc Hc' Hm Hd Hno Hsz Hst H) as HM.
  pose proof (never_mistaken c c' t d t' m [] n r z' Hc Hc' Hm Hd Hno Hsz Hst (fun _ _ Hx => Hx) H Hr) as HN. set (A := nz_entries z') in *. clearbody A.
  assert (HA : entries_ok c' A).
  { eapply Forall_impl; [ | exact HM ]. intros e (q & Hq). split; [ destruct Hq as (Hb & _); now apply Forall_app in Hb as (Hb & _) | ]. intros. eapply prefix_fits; eauto. }
  assert (HP : forall f, ~ panics_at c' t' A f).
  { intros f (before & p & after & _ & _ & bs & (x & y & -> & _) & Hp). apply Forall_app in HM as (_ & HM). apply Forall_cons_iff in HM as ((q & HM) & _). cbn [snd] in HM. eapply prefix_no_panic; eauto. }
  split.
  - intros f. destruct (read_as f c' t' A) as [ m' | e | ] eqn:E; [ exfalso; eapply (proj1 (HN m')); eauto | eauto | ]. apply typed_panic in E; [ | exact HA ]. now apply HP in E.
  - destruct (sparse_from_npz c' t' A) as [ m' | e | ] eqn:E; [ exfalso; eapply (proj2 (HN m')); eauto | eauto | ]. apply dynamic_panic in E as (f & E); [ | exact HA ]. now apply HP in E.
Qed.
