(** Archive entries with checksums. *)
From Verif Require Import M_Base M_Text M_TypeStr M_PyLit M_IO M_Header M_Read M_Serialize M_DTypeErr M_NpyReader M_Source M_Checksum.
From Verif Require Import S_TypeStr S_DType S_Shape S_Header S_Elem S_Strings S_Reader S_Source
  P_Base P_Text P_IO P_Elem P_ReadOne P_ElemT P_Reader P_Source.
Require Import ZifyBool ZifyNat ZifyN.
Open Scope N_scope.

Definition ending (agrees : bool) : source := if agrees then [] else [Fault bad_checksum].
Lemma entry_delivers pieces agrees : Forall (fun p => p <> []) pieces ->
  exists pre, live pre /\ sched_bytes pre = List.concat pieces /\ entry_source pieces agrees = delivers pre (ending agrees).
Proof.
  intros H. exists (map Some pieces). split; [ | split ].
  - induction H as [ | p pieces Hp H IH ]; cbn [map]; constructor; [ congruence | exact IH ].
  - clear H. induction pieces as [ | p pieces IH ]; cbn [map sched_bytes List.concat]; [ reflexivity | now rewrite IH ].
  - unfold entry_source, delivers, ending. f_equal. rewrite map_map. reflexivity.
Qed.
Lemma entry_within {A} (p : rprog A) pieces agrees r rest : Forall (fun p => p <> []) pieces -> ends_within p (List.concat pieces) r rest ->
  fst (run_source p (entry_source pieces agrees)) = Done r.
Proof.
  intros H W. destruct (entry_delivers pieces agrees H) as (pre & Hl & Hb & ->). rewrite <- Hb in W.
  destruct (source_within p (ending agrees) pre r rest Hl W) as (s' & -> & _). reflexivity.
Qed.
Lemma run_ends {A} (p : rprog A) bs v rest : run p bs = (Ok v, rest) -> exists rest', ends_within p bs (Ok v) rest'.
Proof.
  intros H. destruct (within_ok p bs bs [] rest v H) as (K & _); [ now rewrite app_nil_r | ]. destruct K as (rest' & W & _); [ lia | eauto ].
Qed.
Lemma checksum_vec c t pieces hd vs rest : Forall (fun p => p <> []) pieces -> run (into_vec_prog c t) (List.concat pieces) = (Ok (hd, vs), rest) ->
  forall agrees, fst (into_vec_source c t (entry_source pieces agrees)) = Done (Ok (hd, vs)).
Proof. intros Hp H agrees. destruct (run_ends _ _ _ _ H) as (rest' & W). unfold into_vec_source. exact (entry_within _ _ agrees _ _ Hp W). Qed.
Lemma checksum_exact {A} (p : rprog A) pieces : Forall (fun q => q <> []) pieces ->
  (fst (run_source p (entry_source pieces false)) = Failed bad_checksum <-> forall r rest, ~ ends_within p (List.concat pieces) r rest)
  /\ (fst (run_source p (entry_source pieces false)) <> Failed bad_checksum -> fst (run_source p (entry_source pieces false)) = fst (run_source p (entry_source pieces true))).
Proof.
  intros Hp. destruct (entry_delivers pieces false Hp) as (pre & Hl & Hb & E).
  pose proof (source_cases p pre Hl bad_checksum []) as K. change [Fault bad_checksum] with (ending false) in K. rewrite <- E, Hb in K.
  destruct K as [ (r & rest & s' & W & R & _) | (N & R) ].
  - pose proof (entry_within p pieces true r rest Hp W) as T. rewrite R, T. cbn [fst]. split; [ | reflexivity ]. split; [ discriminate | intros H; now destruct (H r rest) ].
  - rewrite R. cbn [fst]. split; [ split; [ intros _; exact N | reflexivity ] | intros H; now contradiction H ].
Qed.
Lemma nexts_done c n : forall q, h_n_records (sr_header q) <= sr_index q -> sr_nexts c n q = (repeat None n, q).
Proof.
  induction n as [ | n IH ]; intros q H; cbn [sr_nexts repeat]; [ reflexivity | ]. unfold sr_next. replace (sr_index q <? h_n_records (sr_header q)) with false by lia. now rewrite (IH q H).
Qed.
Lemma checksum_iterate c t pieces f src' r (blocks : list bytes) vs more : Forall (fun p => p <> []) pieces -> bytes_ok (List.concat pieces) -> strings_fit (c_usize_max c) (h_dtype (nf_header f)) ->
  npy_new c {| cur_data := List.concat pieces; cur_pos := 0 |} = (Ok f, src') -> npy_data c t f = DOk r ->
  cur_rest (nf_src f) = List.concat blocks ++ more -> stored t (h_dtype (nf_header f)) blocks (map Some vs) -> lenN vs = h_n_records (nf_header f) ->
  forall agrees, exists s q, open_source c (entry_source pieces agrees) = (Done (Ok (nf_header f)), s) /\ data_source c t (nf_header f) s = DOk q
  /\ forall m, fst (sr_nexts c (List.length vs + m) q) = map item vs ++ repeat None m.
Proof.
  intros Hp Hb Hf Hn Hd Er Hs Hv agrees. destruct (data_opened c t {| cur_data := List.concat pieces; cur_pos := 0 |} f src' r Hb Hn Hd) as (rd & (Hw & _ & Hr & _) & _).
  apply new_run in Hn. destruct (within_ok _ _ (List.concat pieces) [] _ _ Hn) as (K & _); [ now rewrite app_nil_r | ]. destruct K as (rest' & W & Erest); [ lia | ]. rewrite app_nil_r in Erest. subst rest'.
  destruct (entry_delivers pieces agrees Hp) as (pre & Hl & Hb' & ->). rewrite <- Hb' in W. destruct (source_within _ (ending agrees) pre _ _ Hl W) as (s1 & R & B & L1).
  eexists _, _. split; [ exact R | ]. unfold data_source, npy_data in *. destruct (h_pickled (nf_header f)); [ discriminate Hd | ]. rewrite Hr. split; [ reflexivity | ].
  rewrite Er in B. destruct (nexts_items c t _ (nf_header f) rd (ending agrees) Hw Hf Hr _ _ Hs s1 more 0 L1 B ltac:(lia)) as (s' & _ & _ & G). intros m. rewrite G.
  rewrite nexts_done; [ reflexivity | ]. cbn [sr_header sr_index]. lia.
Qed.
