(** Proofs for C81. *)
From Verif Require Import M_Base M_Text M_TypeStr M_PyLit M_IO M_Header M_Read M_Serialize M_DTypeErr M_NpyReader M_Write.
From Verif Require Import S_Text S_TypeStr S_DType S_Shape S_Header S_Elem S_Strings S_Reader S_Write S_Reject S_DText S_File S_Fault S_Message S_Outcome S_Tally.
From Verif Require Import P_Base P_Text P_TypeStr P_PyLit P_Header P_IO P_Sink P_Shape P_WriteHeader P_Number P_Elem P_ReadOne P_WriteOne P_Codec P_Sizes P_Strings P_Parse P_Default P_ElemT P_Reader P_Array P_Writer P_WriteFile P_Session P_Whole P_DText P_File P_Reject P_Refuse P_Fault P_Message P_Outcome P_Counted.
Require Import ZifyBool ZifyNat ZifyN.
Open Scope N_scope.

Lemma u64_add_wrap c a b : c_ovf_panics c = false -> u64_add c a b = Ok ((a + b) mod 2 ^ 64).
Proof. intros H. unfold u64_add. rewrite H. destruct (N.ltb_spec (a + b) (2 ^ 64)); [ now rewrite N.mod_small | reflexivity ]. Qed.
Lemma push_wrap c v w s : c_ovf_panics c = false ->
  push c v w s = let '(bs, r) := write_one c (w_writer w) v in
                 let '(r', s') := (let@ _u := sink_write bs in sret r) s in (r', with_count w ((w_num_items w + 1) mod 2 ^ 64), s').
Proof. intros H. unfold push. rewrite u64_add_wrap by auto. reflexivity. Qed.
Lemma push_full c v w s : c_ovf_panics c = true -> w_num_items w = 2 ^ 64 - 1 -> push c v w s = (Panic, w, s).
Proof. intros H Hn. unfold push, u64_add. rewrite H, Hn. reflexivity. Qed.

Lemma tally_bound b n : tally b n < 2 ^ 64.
Proof. unfold tally. destruct b; [ lia | now apply N.mod_lt ]. Qed.
Lemma tally_small b n : n < 2 ^ 64 -> tally b n = n.
Proof. intros H. unfold tally. destruct b; [ lia | now apply N.mod_small ]. Qed.
Lemma wrap_step a n : ((a + 1) mod 2 ^ 64 + n) mod 2 ^ 64 = (a + (1 + n)) mod 2 ^ 64.
Proof. rewrite N.add_mod_idemp_l by discriminate. f_equal. lia. Qed.

(** * Pushes one by one *)
Lemma push_each_wrap c t d vs : c_ovf_panics c = false -> wf_dtype d -> strings_fit (c_usize_max c) d -> Forall (has_type t) vs -> forall w s, writer c t d = DOk (w_writer w) ->
  w_num_items w < 2 ^ 64 -> sk_fuel s = None ->
  exists rs data, push_each c vs w s = (rs, with_count w ((w_num_items w + lenN vs) mod 2 ^ 64), put s data None) /\ pushes t d vs rs data.
Proof.
  intros Hc Hw Hs Hvs. induction Hvs as [ | v vs Hv Hvs IH ]; intros w s Hr Hn HN.
  - exists [], []. cbn [push_each]. change (lenN (@nil val)) with 0. rewrite N.add_0_r, N.mod_small, with_count_id, put_nil by auto. split; [ destruct s; cbn in *; now subst | constructor ].
  - cbn [push_each]. rewrite push_wrap by auto.
    assert (G : forall bs r, write_one c (w_writer w) v = (bs, r) -> (forall rs data, pushes t d vs rs data -> pushes t d (v :: vs) (r :: rs) (bs ++ data)) ->
      exists rs data, (let '(r', w', s') := (let '(bs, r) := write_one c (w_writer w) v in let '(r', s') := (let@ _u := sink_write bs in sret r) s in (r', with_count w ((w_num_items w + 1) mod 2 ^ 64), s')) in
        let '(rs, w'', s'') := push_each c vs w' s' in (r' :: rs, w'', s'')) = (rs, with_count w ((w_num_items w + lenN (v :: vs)) mod 2 ^ 64), put s data None) /\ pushes t d (v :: vs) rs data).
    { intros bs r E HP. rewrite E. unfold sbind. rewrite (sink_write_none s bs HN). unfold sret.
      destruct (IH (with_count w ((w_num_items w + 1) mod 2 ^ 64)) (put s bs None)) as (rs & data & E2 & P2); [ exact Hr | cbn [with_count w_num_items]; now apply N.mod_lt | reflexivity | ].
      exists (r :: rs), (bs ++ data). rewrite E2, put_put. split; [ | auto ]. cbn [with_count w_num_items]. rewrite wrap_step, lenN_cons. reflexivity. }
    destruct (storable c t d (w_writer w) v Hw Hs Hr Hv) as [ (b & Eb & E) | (out & msg & Eu & E) ]; apply (G _ _ E); intros; now constructor.
Qed.
Lemma push_each_full c vs w s : c_ovf_panics c = true -> w_num_items w = 2 ^ 64 - 1 -> push_each c vs w s = (map (fun _ => Panic) vs, w, s).
Proof. intros H Hn. induction vs as [ | v vs IH ]; cbn [push_each map]; [ reflexivity | ]. now rewrite push_full, IH. Qed.
Lemma push_each_app c l1 l2 : forall w s rs1 w1 s1 rs2 w2 s2, push_each c l1 w s = (rs1, w1, s1) -> push_each c l2 w1 s1 = (rs2, w2, s2) -> push_each c (l1 ++ l2) w s = (rs1 ++ rs2, w2, s2).
Proof.
  induction l1 as [ | v l1 IH ]; intros w s rs1 w1 s1 rs2 w2 s2 H1 H2; cbn [push_each app] in *.
  - apply pair_inj in H1 as (E & <-). apply pair_inj in E as (<- & <-). exact H2.
  - destruct (push c v w s) as ((r, w'), s'). destruct (push_each c l1 w' s') as ((rs, w''), s'') eqn:E. apply pair_inj in H1 as (H1 & <-). apply pair_inj in H1 as (<- & <-).
    rewrite (IH _ _ _ _ _ _ _ _ E H2). reflexivity.
Qed.
Lemma push_each_tally c t d vs w s : wf_dtype d -> strings_fit (c_usize_max c) d -> Forall (has_type t) vs -> writer c t d = DOk (w_writer w) ->
  w_num_items w = 0 -> sk_fuel s = None ->
  exists rs data, push_each c vs w s = (rs, with_count w (tally (c_ovf_panics c) (lenN vs)), put s data None) /\ all_pushes (c_ovf_panics c) t d vs rs data.
Proof.
  intros Hw Hs Hvs Hr H0 HN. unfold tally. destruct (c_ovf_panics c) eqn:Hc.
  - destruct (N.ltb_spec (lenN vs) (2 ^ 64)) as [ Hn | Hn ].
    + destruct (push_each_exact c t d vs Hw Hs Hvs w s Hr ltac:(lia) HN) as (rs & data & E & P). exists rs, data. rewrite E. replace (w_num_items w + lenN vs) with (N.min (lenN vs) (2 ^ 64 - 1)) by lia.
      split; [ reflexivity | ]. now apply every_push.
    + set (before := takeN (2 ^ 64 - 1) vs). set (after := dropN (2 ^ 64 - 1) vs). assert (Ev : vs = before ++ after) by (symmetry; apply takeN_dropN).
      assert (Hb : lenN before = 2 ^ 64 - 1) by (unfold before; rewrite lenN_takeN; lia). assert (Ha : lenN after <> 0) by (unfold after; rewrite lenN_dropN; lia).
      assert (Hvb : Forall (has_type t) before) by (rewrite Ev in Hvs; now apply Forall_app in Hvs).
      destruct (push_each_exact c t d before Hw Hs Hvb w s Hr ltac:(lia) HN) as (rs & data & E & P). exists (rs ++ map (fun _ => Panic) after), data. split.
      * rewrite Ev at 1. replace (w_num_items w + lenN before) with (2 ^ 64 - 1) in E by lia. replace (N.min (lenN vs) (2 ^ 64 - 1)) with (2 ^ 64 - 1) by lia.
        eapply push_each_app; [ exact E | ]. now apply push_each_full.
      * apply (first_pushes true t d vs before after); auto. intros ->. now apply Ha.
  - destruct (push_each_wrap c t d vs Hc Hw Hs Hvs w s Hr ltac:(lia) HN) as (rs & data & E & P). exists rs, data. rewrite E, H0, N.add_0_l. split; [ reflexivity | ]. apply every_push; [ discriminate | auto ].
Qed.

Lemma any_session_total c t d o h vs e s : wf_dtype d -> strings_fit (c_usize_max c) d -> top_level d -> Forall (has_type t) vs ->
  hint_ok h -> short_header d h -> sk_fuel s = None ->
  exists r file s', session c t d o h (output_kind h) vs e s = (r, s') /\ any_session (c_ovf_panics c) (c_usize_max c) t d o h vs e r file
  /\ placed (sk_data s) (sk_pos s) file (sk_data s') /\ sk_pos s' = sk_pos s + lenN file /\ sk_fuel s' = None.
Proof.
  intros Hw Hsf Ht Hvs Hh Hs HN. destruct (accepted_or_complaint c t d Hw) as [ A | (msg & M) ].
  - pose proof A as A'. apply writer_accepts in A' as (tw & Htw). destruct (create_short c d o h Hh Hs) as (dict & info & Hc & Hf).
    destruct (begin_ok_intro c t d o h (output_kind h) s dict info tw Ht Hc Hf Htw HN) as (w & hdr & Hb). unfold session. rewrite Hb.
    pose proof Hb as Hb'. apply begin_ok_inv in Hb' as (_ & ? & ? & ? & ? & ? & tw' & _ & _ & _ & Htw' & _ & Ew).
    assert (Hwr : writer c t d = DOk (w_writer w)) by (rewrite Ew; exact Htw'). assert (H0 : w_num_items w = 0) by (rewrite Ew; reflexivity).
    destruct (push_each_tally c t d vs w (put s hdr None) Hw Hsf Hvs Hwr H0 eq_refl) as (rs & data & Ep & HP). rewrite Ep.
    destruct (end_exact c t d o h s w _ (tally (c_ovf_panics c) (lenN vs)) data e Hw Hh (tally_bound _ _) HN Hb) as (r & s' & file & Ee & H1 & H2 & H3). rewrite Ee.
    exists (Ok (rs, r)), file, s'. split; [ reflexivity | ]. split; [ econstructor; eauto | auto ].
  - destruct (refused_outcome c t d o h s msg Hw Ht Hh Hs HN M) as (s' & file & Hb & H1 & H2). unfold session. rewrite Hb. exists (Err (EData msg)), file, s'.
    split; [ reflexivity | ]. split; [ now constructor | auto ].
Qed.

Lemma all_pushes_unique c t d w vs : wf_dtype d -> strings_fit (c_usize_max c) d -> writer c t d = DOk w -> Forall (has_type t) vs ->
  forall b r1 p1 r2 p2, all_pushes b t d vs r1 p1 -> all_pushes b t d vs r2 p2 -> r1 = r2 /\ p1 = p2.
Proof.
  intros Hw Hs Hr Hvs b r1 p1 r2 p2 H1 H2. inversion H1 as [ rs data B P | before after rs data B E L N P ]; subst; inversion H2 as [ rs' data' B' P' | before' after' rs' data' B' E' L' N' P' ]; subst.
  - eapply pushes_unique; eauto.
  - exfalso. specialize (B eq_refl). rewrite lenN_app in B. assert (lenN after' <> 0) by (destruct after'; [ congruence | rewrite lenN_cons; lia ]). lia.
  - exfalso. specialize (B' eq_refl). rewrite lenN_app in B'. assert (lenN after <> 0) by (destruct after; [ congruence | rewrite lenN_cons; lia ]). lia.
  - apply app_inj_lenN in E' as (<- & <-); [ | lia ]. apply Forall_app in Hvs as (Hb & _). destruct (pushes_unique c t d w before Hw Hs Hr Hb _ _ _ _ P P') as (-> & ->). auto.
Qed.
Lemma any_session_unique b c t d o h vs e r1 f1 r2 f2 : wf_dtype d -> strings_fit (c_usize_max c) d -> Forall (has_type t) vs ->
  any_session b (c_usize_max c) t d o h vs e r1 f1 -> any_session b (c_usize_max c) t d o h vs e r2 f2 -> r1 = r2 /\ f1 = f2.
Proof.
  intros Hw Hs Hvs [ m1 g1 M1 F1 | s1 q1 p1 g1 A1 P1 E1 L1 ] [ m2 g2 M2 F2 | s2 q2 p2 g2 A2 P2 E2 L2 ]; try (exfalso; eapply accepts_or_complains; eassumption).
  - rewrite (write_complaint_unique _ _ _ _ _ Hw M1 M2). split; [ reflexivity | ]. eapply begun_unique; eauto.
  - pose proof A1 as A. apply writer_accepts in A as (w & Hr). destruct (all_pushes_unique c t d w vs Hw Hs Hr Hvs _ _ _ _ _ P1 P2) as (-> & ->).
    rewrite (ends_unique _ _ _ _ _ _ E1 E2). split; [ reflexivity | ]. eapply left_unique; eauto.
Qed.
Lemma any_session_iff c t d o h vs e s r file : wf_dtype d -> strings_fit (c_usize_max c) d -> top_level d -> Forall (has_type t) vs ->
  hint_ok h -> short_header d h -> sk_fuel s = None ->
  (exists s', session c t d o h (output_kind h) vs e s = (r, s') /\ placed (sk_data s) (sk_pos s) file (sk_data s') /\ sk_pos s' = sk_pos s + lenN file)
  <-> any_session (c_ovf_panics c) (c_usize_max c) t d o h vs e r file.
Proof.
  intros Hw Hsf Ht Hvs Hh Hs HN. destruct (any_session_total c t d o h vs e s Hw Hsf Ht Hvs Hh Hs HN) as (r0 & f0 & s0 & E & O & P & L & _). rewrite E. split.
  - intros (s' & X & P' & L'). apply pair_inj in X as (<- & <-). rewrite (placed_inj _ _ file f0 _ ltac:(lia) P' P). exact O.
  - intros O'. destruct (any_session_unique _ _ _ _ _ _ _ _ _ _ _ _ Hw Hsf Hvs O O') as (-> & ->). eauto.
Qed.

(** * All at once *)
Lemma extend_wrap c t d vs : c_ovf_panics c = false -> wf_dtype d -> strings_fit (c_usize_max c) d -> Forall (has_type t) vs -> forall w s, writer c t d = DOk (w_writer w) ->
  w_num_items w < 2 ^ 64 -> sk_fuel s = None ->
  (exists payload, encodings t d vs payload /\ extend c vs w s = (Ok tt, with_count w ((w_num_items w + lenN vs) mod 2 ^ 64), put s payload None))
  \/ (exists before v after payload out msg, vs = before ++ v :: after /\ encodings t d before payload /\ unstorable t d v out msg
      /\ extend c vs w s = (Err (EData msg), with_count w ((w_num_items w + (lenN before + 1)) mod 2 ^ 64), put s (payload ++ out) None)).
Proof.
  intros Hc Hw Hs Hvs. induction Hvs as [ | v vs Hv Hvs IH ]; intros w s Hr Hn HN.
  - left. exists []. cbn [extend]. change (lenN (@nil val)) with 0. rewrite N.add_0_r, N.mod_small, with_count_id, put_nil by auto. split; [ apply encodings_nil | destruct s; cbn in *; now subst ].
  - cbn [extend]. rewrite push_wrap by auto.
    destruct (storable c t d (w_writer w) v Hw Hs Hr Hv) as [ (b & Eb & E) | (out & msg & Eu & E) ]; rewrite E; unfold sbind; rewrite (sink_write_none s _ HN); unfold sret.
    + destruct (IH (with_count w ((w_num_items w + 1) mod 2 ^ 64)) (put s b None)) as [ (payload & E2 & P2) | (before & v' & after & payload & out & msg & -> & E2 & U & P2) ];
        [ exact Hr | cbn [with_count w_num_items]; now apply N.mod_lt | reflexivity | | ].
      * left. exists (b ++ payload). rewrite P2, put_put. split; [ now apply encodings_cons | ]. cbn [with_count w_num_items]. rewrite wrap_step, lenN_cons. reflexivity.
      * right. exists (v :: before), v', after, (b ++ payload), out, msg. split; [ reflexivity | ]. split; [ now apply encodings_cons | ]. split; [ auto | ].
        rewrite P2, put_put, app_assoc. cbn [with_count w_num_items]. rewrite wrap_step, lenN_cons, <- (N.add_assoc 1). reflexivity.
    + right. exists [], v, vs, [], out, msg. split; [ reflexivity | ]. split; [ apply encodings_nil | ]. split; [ auto | ]. reflexivity.
Qed.
Lemma extend_app c l1 l2 : forall w s w1 s1, extend c l1 w s = (Ok tt, w1, s1) -> extend c (l1 ++ l2) w s = extend c l2 w1 s1.
Proof.
  induction l1 as [ | v l1 IH ]; intros w s w1 s1 H; cbn [extend app] in *; [ apply pair_inj in H as (E & <-); apply pair_inj in E as (_ & <-); reflexivity | ].
  destruct (push c v w s) as (([ [] | | ], w'), s'); [ now apply IH | | ]; apply pair_inj in H as (E & _); apply pair_inj in E as (E & _); discriminate.
Qed.
Lemma extend_app_err c l1 l2 e : forall w s w1 s1, extend c l1 w s = (Err e, w1, s1) -> extend c (l1 ++ l2) w s = (Err e, w1, s1).
Proof.
  induction l1 as [ | v l1 IH ]; intros w s w1 s1 H; cbn [extend app] in *; [ apply pair_inj in H as (E & _); apply pair_inj in E as (E & _); discriminate | ].
  destruct (push c v w s) as (([ [] | | ], w'), s'); [ now apply IH | exact H | exact H ].
Qed.

Lemma any_write_total c t d o h vs s : wf_dtype d -> strings_fit (c_usize_max c) d -> top_level d -> Forall (has_type t) vs ->
  hint_ok h -> short_header d h -> sk_fuel s = None ->
  exists r file s', write_file c t d o h (output_kind h) vs s = (r, s') /\ any_write (c_ovf_panics c) (c_usize_max c) t d o h vs r file
  /\ placed (sk_data s) (sk_pos s) file (sk_data s') /\ sk_pos s' = sk_pos s + lenN file /\ sk_fuel s' = None.
Proof.
  intros Hw Hsf Ht Hvs Hh Hs HN. destruct (accepted_or_complaint c t d Hw) as [ A | (msg & M) ].
  2:{ destruct (refused_outcome c t d o h s msg Hw Ht Hh Hs HN M) as (s' & file & Hb & H1 & H2). unfold write_file, sbind. rewrite Hb. exists (Err (EData msg)), file, s'.
      split; [ reflexivity | ]. split; [ now constructor | auto ]. }
  pose proof A as A'. apply writer_accepts in A' as (tw & Htw). destruct (create_short c d o h Hh Hs) as (dict & info & Hc & Hf).
  destruct (begin_ok_intro c t d o h (output_kind h) s dict info tw Ht Hc Hf Htw HN) as (w & hdr & Hb). unfold write_file, sbind. rewrite Hb.
  pose proof Hb as Hb'. apply begin_ok_inv in Hb' as (_ & ? & ? & ? & ? & ? & tw' & _ & _ & _ & Htw' & _ & Ew).
  assert (Hwr : writer c t d = DOk (w_writer w)) by (rewrite Ew; exact Htw'). assert (H0 : w_num_items w = 0) by (rewrite Ew; reflexivity).
  unfold push_all_and_finish.
  (* once the pushes are known *)
  assert (GA : forall payload, encodings t d vs payload -> (c_ovf_panics c = true -> lenN vs < 2 ^ 64) ->
     extend c vs w (put s hdr None) = (Ok tt, with_count w (tally (c_ovf_panics c) (lenN vs)), put (put s hdr None) payload None) ->
     exists r file s', match extend c vs w (put s hdr None) with (Ok _, w', s') => finish w' s' | (r, w', s') => match drop_writer w' s' with (Panic, s'') => (Panic, s'') | (_, s'') => (r, s'') end end = (r, s')
       /\ any_write (c_ovf_panics c) (c_usize_max c) t d o h vs r file /\ placed (sk_data s) (sk_pos s) file (sk_data s') /\ sk_pos s' = sk_pos s + lenN file /\ sk_fuel s' = None).
  { intros payload E Hl X. rewrite X. destruct (end_exact c t d o h s w _ (tally (c_ovf_panics c) (lenN vs)) payload Finished Hw Hh (tally_bound _ _) HN Hb) as (r & s' & file & Ee & H1 & H2 & H3). cbn [ended] in Ee. rewrite Ee.
    exists r, file, s'. split; [ reflexivity | ]. split; [ eapply any_write_all; eauto | auto ]. }
  assert (GS : forall before v after payload out msg, vs = before ++ v :: after -> (c_ovf_panics c = true -> lenN before + 1 < 2 ^ 64) -> encodings t d before payload -> unstorable t d v out msg ->
     extend c vs w (put s hdr None) = (Err (EData msg), with_count w (tally (c_ovf_panics c) (lenN before + 1)), put (put s hdr None) (payload ++ out) None) ->
     exists r file s', match extend c vs w (put s hdr None) with (Ok _, w', s') => finish w' s' | (r, w', s') => match drop_writer w' s' with (Panic, s'') => (Panic, s'') | (_, s'') => (r, s'') end end = (r, s')
       /\ any_write (c_ovf_panics c) (c_usize_max c) t d o h vs r file /\ placed (sk_data s) (sk_pos s) file (sk_data s') /\ sk_pos s' = sk_pos s + lenN file /\ sk_fuel s' = None).
  { intros before v after payload out msg E Hl E2 U X. rewrite X.
    destruct (end_exact c t d o h s w _ (tally (c_ovf_panics c) (lenN before + 1)) (payload ++ out) Dropped Hw Hh (tally_bound _ _) HN Hb) as (r & s' & file & Ee & H1 & H2 & H3). cbn [ended] in Ee. rewrite Ee.
    exists (match h with TwoDimensional 0 => Panic | _ => Err (EData msg) end), file, s'. split; [ | split; [ eapply any_write_stuck; eauto | auto ] ].
    inversion H1; subst; auto.
    * destruct h as [ sh | [ | p ] | ]; try reflexivity. discriminate.
    * match goal with C : count_complaint _ _ _ |- _ => inversion C; subst; auto end. destruct r; [ congruence | reflexivity ]. }
  destruct (c_ovf_panics c) eqn:Ho.
  - destruct (N.ltb_spec (lenN vs) (2 ^ 64)) as [ Hn | Hn ].
    + destruct (extend_exact c t d vs Hw Hsf Hvs w (put s hdr None) Hwr ltac:(lia) eq_refl) as [ (payload & E & X) | (before & v & after & payload & out & msg & E & E2 & U & X) ];
        rewrite H0, N.add_0_l in X.
      * apply (GA payload); auto. now rewrite tally_small.
      * assert (Hl : lenN before + 1 < 2 ^ 64) by (rewrite E, lenN_app, lenN_cons in Hn; lia). apply (GS before v after payload out msg); auto. now rewrite tally_small.
    + set (before := takeN (2 ^ 64 - 1) vs). set (after := dropN (2 ^ 64 - 1) vs). assert (Ev : vs = before ++ after) by (symmetry; apply takeN_dropN).
      assert (Hl : lenN before = 2 ^ 64 - 1) by (unfold before; rewrite lenN_takeN; lia). assert (Ha : lenN after <> 0) by (unfold after; rewrite lenN_dropN; lia).
      assert (Hvb : Forall (has_type t) before) by (rewrite Ev in Hvs; now apply Forall_app in Hvs).
      destruct (extend_exact c t d before Hw Hsf Hvb w (put s hdr None) Hwr ltac:(lia) eq_refl) as [ (payload & E & X) | (before' & v & after' & payload & out & msg & E & E2 & U & X) ];
        rewrite H0, N.add_0_l in X.
      * destruct after as [ | v after ]; [ now elim Ha | ]. 
        assert (Y : extend c (before ++ v :: after) w (put s hdr None) = (Panic, with_count w (lenN before), put (put s hdr None) payload None)).
        { rewrite (extend_app _ _ _ _ _ _ _ X). cbn [extend]. now rewrite push_full. }
        rewrite <- Ev in Y. rewrite Y.
        destruct (end_exact c t d o h s w _ (lenN before) payload Dropped Hw Hh ltac:(lia) HN Hb) as (r & s' & file & Ee & H1 & H2 & H3). cbn [ended] in Ee. rewrite Ee.
        exists Panic, file, s'. split; [ now destruct r | ]. split; [ | auto ]. rewrite Hl in H2. eapply any_write_overflow; eauto.
      * assert (Hl' : lenN before' + 1 < 2 ^ 64) by (rewrite E, lenN_app, lenN_cons in Hl; lia). apply (GS before' v (after' ++ after) payload out msg); auto.
        { rewrite Ev, E. now rewrite <- app_assoc. } rewrite tally_small by auto. rewrite Ev. now apply extend_app_err.
  - destruct (extend_wrap c t d vs Ho Hw Hsf Hvs w (put s hdr None) Hwr ltac:(lia) eq_refl) as [ (payload & E & X) | (before & v & after & payload & out & msg & E & E2 & U & X) ];
      rewrite H0, N.add_0_l in X; [ apply (GA payload) | apply (GS before v after payload out msg) ]; auto; discriminate.
Qed.

(** * What is read back *)
Lemma encodings_split t d l1 l2 p : encodings t d (l1 ++ l2) p -> exists p1 p2, encodings t d l1 p1 /\ encodings t d l2 p2 /\ p = p1 ++ p2.
Proof.
  intros (bl & H & ->). apply Forall2_app_inv_l in H as (b1 & b2 & H1 & H2 & ->). exists (List.concat b1), (List.concat b2). rewrite concat_app.
  split; [ now exists b1 | ]. split; [ now exists b2 | reflexivity ].
Qed.

Lemma finished_part d o h shape p1 p2 file : finished_file d o h shape (p1 ++ p2) file -> exists file1, file = file1 ++ p2 /\ finished_file d o h shape p1 file1.
Proof.
  intros (sh & reserve & Hs & Hl). destruct Hl as [ dt dict spaces major len H1 H2 H3 H4 H5 H6 H7 H8 ].
  exists ([0x93] ++ lit "NUMPY" ++ [major; 0] ++ len ++ dict ++ repeatN 32 (reserve + spaces) ++ [10] ++ p1). split; [ now rewrite <- !app_assoc | ].
  exists sh, reserve. split; [ auto | ]. econstructor; eauto.
Qed.
Lemma placed_part data pos f1 f2 data' : placed data pos (f1 ++ f2) data' -> placed data' pos f1 data'.
Proof.
  unfold placed. intros E. assert (L : pos <= lenN data').
  { rewrite E, !lenN_app, lenN_takeN, lenN_repeatN. lia. }
  assert (T : takeN pos data' = takeN pos data ++ repeatN 0 (pos - lenN data)).
  { rewrite E. rewrite app_assoc. apply takeN_app. rewrite lenN_app, lenN_takeN, lenN_repeatN. lia. }
  assert (D : dropN pos data' = f1 ++ f2 ++ dropN (pos + lenN (f1 ++ f2)) data).
  { rewrite E at 1. rewrite app_assoc, dropN_app; [ now rewrite <- app_assoc | ]. rewrite lenN_app, lenN_takeN, lenN_repeatN. lia. }
  replace (pos - lenN data') with 0 by lia. change (repeatN 0 0) with (@nil N). cbn [app].
  rewrite <- (takeN_dropN pos data') at 1. f_equal. rewrite D. f_equal. replace (pos + lenN f1) with (lenN f1 + pos) by lia. rewrite <- (dropN_dropN (lenN f1) pos data'), D. now rewrite dropN_app.
Qed.
Lemma shape_bound h o n shape : hint_ok h -> n < 2 ^ 64 -> final_shape h o n = Some shape -> Forall (fun n => n < 2 ^ 64) shape /\ no_overflow shape.
Proof.
  intros Hh Hn Hs. destruct h as [ sh | r | ].
  - cbn [final_shape] in Hs. destruct (count sh =? n); [ | discriminate ]. apply Some_inj in Hs as <-. exact Hh.
  - pose proof (shape_with_ok (TwoDimensional r) o n shape I Hh Hn Hs) as H. cbn [final_shape] in Hs. destruct ((r =? 0) || negb (n mod r =? 0)); [ discriminate | ]. apply Some_inj in Hs.
    destruct H as (H1 & H2 & _); [ subst shape; destruct o; reflexivity | auto ].
  - destruct (shape_with_ok OneDimensional o n shape I Hh Hn Hs) as (H1 & H2 & _); [ apply Some_inj in Hs; subst shape; reflexivity | auto ].
Qed.

Lemma encodable_not_unstorable c t d v b out msg : wf_dtype d -> strings_fit (c_usize_max c) d -> accepts (c_usize_max c) Writing t d -> has_type t v ->
  encode t d v = Some b -> unstorable t d v out msg -> False.
Proof.
  intros Hw Hs Ha Hv Eb U. apply writer_accepts in Ha as (w & Hr). destruct (one_unstorable c t d w v Hw Hs Hr Hv) as [ (b' & _ & Nu) | (E & _) ]; [ eapply Nu; eauto | congruence ].
Qed.

Lemma part_reads c m t d o h shape vs k pos data file payload data' : wf_dtype d -> top_level d -> strings_fit (c_usize_max c) d -> Forall (has_type t) vs ->
  accepts m Writing t d -> accepts (c_usize_max c) Reading t d -> sizes_fit (c_usize_max c) d -> hint_ok h -> k < 2 ^ 64 -> k <= lenN vs -> final_shape h o k = Some shape ->
  encodings t d vs payload -> placed data pos file data' -> finished_file d o h shape payload file ->
  reads_as c t data' pos d o shape (map (read_back t d) (takeN k vs)).
Proof.
  intros Hw Ht Hsf Hvs Ha Hr Hz Hh Hk Hl Hs He Hp Hf. rewrite <- (takeN_dropN k vs) in He, Hvs. apply encodings_split in He as (p1 & p2 & He1 & _ & ->). apply Forall_app in Hvs as (Hv1 & _).
  apply finished_part in Hf as (f1 & -> & Hf). apply placed_part in Hp. destruct (shape_bound h o k shape Hh Hk Hs) as (H64 & Hno).
  apply (file_reads_back c m t d o shape (takeN k vs) pos data' f1 p1 data'); auto.
  - rewrite (P_Whole.final_count _ _ _ _ Hs), lenN_takeN. lia.
  - eapply finished_opens; eauto.
Qed.

Lemma any_reads c c' t d o h vs s r s' shape : wf_dtype d -> strings_fit (c_usize_max c) d -> top_level d -> accepts (c_usize_max c) Writing t d -> Forall (has_type t) vs ->
  Forall (fun v => exists b, encode t d v = Some b) vs -> hint_ok h -> short_header d h -> sk_fuel s = None ->
  write_file c t d o h (output_kind h) vs s = (r, s') -> final_shape h o (tally (c_ovf_panics c) (lenN vs)) = Some shape ->
  accepts (c_usize_max c') Reading t d -> sizes_fit (c_usize_max c') d -> strings_fit (c_usize_max c') d ->
  reads_as c' t (sk_data s') (sk_pos s) d o shape (map (read_back t d) (takeN (tally (c_ovf_panics c) (lenN vs)) vs)).
Proof.
  intros Hw Hsf Ht Ha Hvs Hen Hh Hsh HN E Hs Hr Hz Hsf'. destruct (any_write_total c t d o h vs s Hw Hsf Ht Hvs Hh Hsh HN) as (r0 & file & s0 & E0 & O & P & _ & _).
  rewrite E in E0. apply pair_inj in E0 as (<- & <-).
  assert (Hle : tally (c_ovf_panics c) (lenN vs) <= lenN vs) by (unfold tally; destruct (c_ovf_panics c); [ lia | now apply N.mod_le ]).
  destruct O as [ msg file M _ | before v after payload out msg file r A Ev _ _ U _ _ | before v after payload file A Ev Hc Hl Hp L | payload file r A Hc Hp He L ].
  - exfalso. eapply accepts_or_complains; eauto.
  - exfalso. subst vs. rewrite Forall_forall in Hvs, Hen. destruct (Hen v (in_elt _ _ _)) as (b & Eb). exact (encodable_not_unstorable c t d v b out msg Hw Hsf Ha (Hvs v (in_elt _ _ _)) Eb U).
  - assert (Et : tally (c_ovf_panics c) (lenN vs) = 2 ^ 64 - 1) by (rewrite Hc; unfold tally; rewrite Ev, lenN_app, lenN_cons; lia). rewrite Et in *.
    replace (takeN (2 ^ 64 - 1) vs) with (takeN (2 ^ 64 - 1) before) by (rewrite Ev, takeN_app by auto; apply takeN_all; lia).
    unfold left_behind in L. rewrite Hs in L. assert (Hvb : Forall (has_type t) before) by (subst vs; now apply Forall_app in Hvs).
    eapply (part_reads c' (c_usize_max c) t d o h shape before); eauto; lia.
  - unfold left_behind in L. rewrite Hs in L. eapply (part_reads c' (c_usize_max c) t d o h shape vs); eauto. apply tally_bound.
Qed.

Lemma any_result c t d o h vs s : wf_dtype d -> strings_fit (c_usize_max c) d -> top_level d -> accepts (c_usize_max c) Writing t d -> Forall (has_type t) vs ->
  Forall (fun v => exists b, encode t d v = Some b) vs -> hint_ok h -> short_header d h -> sk_fuel s = None ->
  (c_ovf_panics c = true -> 2 ^ 64 <= lenN vs -> fst (write_file c t d o h (output_kind h) vs s) = Panic)
  /\ (c_ovf_panics c = false -> (fst (write_file c t d o h (output_kind h) vs s) = Ok tt <-> exists shape, final_shape h o (lenN vs mod 2 ^ 64) = Some shape)).
Proof.
  intros Hw Hsf Ht Ha Hvs Hen Hh Hsh HN. destruct (any_write_total c t d o h vs s Hw Hsf Ht Hvs Hh Hsh HN) as (r0 & file & s0 & E0 & O & _). rewrite E0. cbn [fst]. clear E0.
  destruct O as [ msg file M _ | before v after payload out msg file r A Ev _ _ U _ _ | before v after payload file A Ev Hc Hl Hp L | payload file r A Hc Hp He L ].
  - exfalso. eapply accepts_or_complains; eauto.
  - exfalso. subst vs. rewrite Forall_forall in Hvs, Hen. destruct (Hen v (in_elt _ _ _)) as (b & Eb). exact (encodable_not_unstorable c t d v b out msg Hw Hsf Ha (Hvs v (in_elt _ _ _)) Eb U).
  - split; [ auto | congruence ].
  - split; [ intros Ho Hn; specialize (Hc Ho); lia | ]. intros Ho. rewrite Ho in He. unfold tally in He. split.
    + intros ->. inversion He; subst; eauto.
    + intros (shape & Hs). inversion He; subst; auto; try (exfalso; eapply complaint_no_shape; eassumption). cbn [final_shape] in Hs. discriminate.
Qed.

(** * The length is not always right *)
Lemma wrapped_file c c' t d o vs s : c_ovf_panics c = false -> wf_dtype d -> strings_fit (c_usize_max c) d -> top_level d -> accepts (c_usize_max c) Writing t d -> Forall (has_type t) vs ->
  Forall (fun v => exists b, encode t d v = Some b) vs -> short_header d OneDimensional -> sk_fuel s = None ->
  accepts (c_usize_max c') Reading t d -> sizes_fit (c_usize_max c') d -> strings_fit (c_usize_max c') d -> lenN vs mod 2 ^ 64 = 0 ->
  exists s', write_file c t d o OneDimensional true vs s = (Ok tt, s') /\ reads_as c' t (sk_data s') (sk_pos s) d o [0] [].
Proof.
  intros Ho Hw Hsf Ht Ha Hvs Hen Hsh HN Hr Hz Hsf' Hl.
  destruct (any_result c t d o OneDimensional vs s Hw Hsf Ht Ha Hvs Hen I Hsh HN) as (_ & H2). destruct (H2 Ho) as (_ & H3). cbn [output_kind] in H3.
  destruct (write_file c t d o OneDimensional true vs s) as (r, s') eqn:E. cbn [fst] in H3. assert (Er : r = Ok tt) by (apply H3; eexists; reflexivity). subst r.
  exists s'. split; [ reflexivity | ].
  pose proof (any_reads c c' t d o OneDimensional vs s (Ok tt) s' [0] Hw Hsf Ht Ha Hvs Hen I Hsh HN E) as R. rewrite Ho in R. unfold tally in R. rewrite Hl in R. exact (R eq_refl Hr Hz Hsf').
Qed.
Lemma reads_as_shape c t data pos d o shape vs d' o' shape' vs' : reads_as c t data pos d o shape vs -> reads_as c t data pos d' o' shape' vs' -> shape = shape' /\ vs = vs'.
Proof.
  intros (f & src & E & _ & S & _ & V) (f' & src' & E' & _ & S' & _ & V'). rewrite E in E'. apply pair_inj in E' as (E' & _). apply Ok_inj in E'. subst f'. split; [ congruence | ].
  rewrite V in V'. now apply Ok_inj in V'.
Qed.
