(** Writers through a BufWriter to outputs whose calls fail now and then. *)
From Verif Require Import M_Base M_Text M_TypeStr M_PyLit M_IO M_Header M_Read M_Serialize M_DTypeErr M_NpyReader M_Write M_Buffered M_Shaky M_Spill.
From Verif Require Import S_Text S_TypeStr S_DType S_Shape S_Header S_Elem S_Strings S_Reader S_Write S_Reject S_DText S_File S_Fault S_Message S_Outcome S_Shaky S_Spill.
From Verif Require Import P_Base P_Text P_TypeStr P_PyLit P_Header P_IO P_Sink P_Shape P_WriteHeader P_Number P_Elem P_ReadOne P_WriteOne P_Codec P_Sizes P_Strings P_Parse P_Default P_ElemT P_Reader P_Array P_Writer P_WriteFile P_Session P_Whole T_Text P_DText P_File P_Reject P_Refuse P_Fault P_Message P_Outcome P_Buffered P_Crash P_Counted P_Shaky.
Require Import ZifyBool ZifyNat ZifyN.
Open Scope N_scope.

(** * The buffer *)
(** Since [base], [W] was written; the output has the beginning of it, the buffer the rest. *)
Definition lag (base : sink) (W : bytes) (q : spilling) : Prop :=
  sk_fuel base = None /\ exists k, k <= lenN W /\ y_out (q_out q) = put base (takeN k W) None /\ q_buf q = dropN k W.
Definition settled (s : sink) (q : spilling) : Prop := sk_fuel s = None /\ y_out (q_out q) = s /\ q_buf q = [].
Lemma settled_lag s q : settled s q -> lag s [] q.
Proof. intros (HN & E & B). split; [ auto | ]. exists 0. split; [ apply N.le_0_l | ]. rewrite takeN_0, dropN_0, put_same by auto. auto. Qed.
Lemma lag_settled base W q : lag base W q -> q_buf q = [] -> settled (put base W None) q.
Proof.
  intros (HN & k & Hk & E & B) H. split; [ reflexivity | ]. split; [ | auto ]. rewrite E. f_equal. apply takeN_all. rewrite B in H. apply (f_equal lenN) in H. rewrite lenN_dropN, lenN_nil in H. lia.
Qed.
Lemma settled_put base W q : sk_fuel base = None -> settled (put base W None) q -> lag base W q.
Proof. intros HN (_ & E & B). split; [ auto | ]. exists (lenN W). split; [ lia | ]. rewrite takeN_all, dropN_all by lia. auto. Qed.
Lemma lag_same base W q q' : lag base W q -> q_out q' = q_out q -> q_buf q' = q_buf q -> lag base W q'.
Proof. intros (HN & k & H) E1 E2. split; [ auto | ]. exists k. now rewrite E1, E2. Qed.
Lemma settled_same s q q' : settled s q -> q_out q' = q_out q -> q_buf q' = q_buf q -> settled s q'.
Proof. intros (HN & H) E1 E2. split; [ auto | ]. now rewrite E1, E2. Qed.

Lemma flush_lag base W q : lag base W q ->
  (exists q', flush_buf q = (Ok tt, q') /\ settled (put base W None) q' /\ q_cap q' = q_cap q) \/ (exists q', flush_buf q = (Err ESink, q') /\ lag base W q' /\ q_cap q' = q_cap q).
Proof.
  intros (HN & k & Hk & E & B). unfold flush_buf. destruct (shaky_write_cases (q_buf q) (q_out q)) as [ (plan & W1) | (part & plan & W1 & Hc) ]; [ now rewrite E | | ]; rewrite W1; cbn [on y_out put sk_pos].
  - left. eexists. split; [ reflexivity | ]. split; [ | reflexivity ]. split; [ reflexivity | ]. cbn [with_state q_out q_buf on y_out]. split.
    + rewrite E, put_put, B, takeN_dropN. reflexivity.
    + apply dropN_all. lia.
  - right. eexists. split; [ reflexivity | ]. split; [ | reflexivity ]. split; [ auto | ]. exists (k + lenN part). cbn [with_state q_out q_buf on y_out].
    apply cut_take in Hc as (Ep & Hp). rewrite B in Ep, Hp. rewrite lenN_dropN in Hp. split; [ lia | ]. split.
    + rewrite E, put_put, takeN_add. f_equal. f_equal. exact Ep.
    + rewrite B, dropN_dropN. f_equal. lia.
Qed.
Lemma write_all_lag base W bs q : lag base W q -> exists r q' part, buf_write_all bs q = (r, q') /\ lag base (W ++ part) q' /\ q_cap q' = q_cap q
  /\ (r = Ok tt /\ part = bs \/ r = Err ESink /\ cut_short part bs /\ (lenN bs < q_cap q -> part = [])).
Proof.
  intros H. unfold buf_write_all. destruct (N.ltb_spec (lenN bs) (q_cap q - lenN (q_buf q))) as [ Hl | Hl ].
  - exists (Ok tt), (with_state q (q_out q) (q_buf q ++ bs)), bs. split; [ reflexivity | ]. split; [ | auto ]. destruct H as (HN & k & Hk & E & B). split; [ auto | ]. exists k. rewrite lenN_app. split; [ lia | ].
    cbn [with_state q_out q_buf]. rewrite takeN_app_gen, dropN_app_gen. replace (k - lenN W) with 0 by lia. now rewrite takeN_0, dropN_0, app_nil_r, <- B.
  - assert (G : forall q1, (settled (put base W None) q1 \/ bs = [] /\ lag base W q1) -> q_cap q1 = q_cap q -> q_cap q <= lenN bs ->
      exists r q' part, (let '(r, y) := shaky_write bs (q_out q1) in (r, with_state q1 y (q_buf q1))) = (r, q') /\ lag base (W ++ part) q' /\ q_cap q' = q_cap q
      /\ (r = Ok tt /\ part = bs \/ r = Err ESink /\ cut_short part bs /\ (lenN bs < q_cap q -> part = []))).
    { intros q1 [ HS | (-> & HL) ] Hc Hb.
      - destruct HS as (HN & E & B). pose proof (proj1 H) as HNb. destruct (shaky_write_cases bs (q_out q1)) as [ (plan & W1) | (part & plan & W1 & Hcut) ]; [ now rewrite E | | ]; rewrite W1, E, put_put.
        + eexists _, _, bs. split; [ reflexivity | ]. split; [ | auto ]. apply settled_put; [ auto | ]. split; [ reflexivity | ]. auto.
        + eexists _, _, part. split; [ reflexivity | ]. split; [ | split; [ auto | right; repeat split; auto; lia ] ]. apply settled_put; [ auto | ]. split; [ reflexivity | ]. auto.
      - cbn [shaky_write]. eexists _, _, []. split; [ reflexivity | ]. rewrite app_nil_r. split; [ | auto ]. eapply lag_same; eauto. }
    destruct (N.ltb_spec (q_cap q - lenN (q_buf q)) (lenN bs)) as [ Hl2 | Hl2 ].
    + destruct (flush_lag base W q H) as [ (q1 & E & HS & Hc) | (q1 & E & HL & Hc) ]; rewrite E.
      * destruct (N.leb_spec (q_cap q) (lenN bs)) as [ Hcb | Hcb ]; [ apply G; auto | ].
        eexists _, _, bs. split; [ reflexivity | ]. split; [ | auto ]. destruct H as (HN & _). destruct HS as (_ & E1 & B). split; [ auto | ]. exists (lenN W). rewrite lenN_app. split; [ lia | ].
        cbn [with_state q_out q_buf]. now rewrite takeN_app, dropN_app, B by auto.
      * exists (Err ESink), q1, []. rewrite app_nil_r. split; [ reflexivity | ]. split; [ auto | ]. split; [ auto | ]. right. split; [ auto | ]. split; [ | auto ]. exists bs. split; [ reflexivity | ]. intros ->.
        change (lenN (@nil N)) with 0 in Hl2. lia.
    + destruct (N.leb_spec (q_cap q) (lenN bs)) as [ Hcb | Hcb ].
      * apply G; auto. destruct (N.eq_dec (q_cap q) 0) as [ E0 | E0 ]; [ right | left ].
        -- split; [ | auto ]. destruct bs; [ auto | rewrite lenN_cons in *; lia ].
        -- apply lag_settled; auto. destruct (q_buf q); [ auto | rewrite lenN_cons in *; lia ].
      * eexists _, _, bs. split; [ reflexivity | ]. split; [ | auto ]. destruct H as (HN & k & Hk & E & B). split; [ auto | ]. exists k. rewrite lenN_app. split; [ lia | ].
        cbn [with_state q_out q_buf]. rewrite takeN_app_gen, dropN_app_gen. replace (k - lenN W) with 0 by lia. now rewrite takeN_0, dropN_0, app_nil_r, <- B.
Qed.
Lemma pieces_lag base lens : forall W bs q, lag base W q -> exists r q' part, buf_pieces lens bs q = (r, q') /\ lag base (W ++ part) q' /\ q_cap q' = q_cap q
  /\ (r = Ok tt /\ part = bs \/ r = Err ESink /\ cut_short part bs /\ (lens = [] -> lenN bs < q_cap q -> part = [])).
Proof.
  induction lens as [ | n lens IH ]; intros W bs q H; cbn [buf_pieces].
  - destruct (write_all_lag base W bs q H) as (r & q' & part & E & HL & Hc & C). exists r, q', part. repeat (split; [ auto | ]). destruct C as [ C | (C1 & C2 & C3) ]; auto 6.
  - destruct (write_all_lag base W (takeN n bs) q H) as (r & q' & part & E & HL & Hc & C). rewrite E. destruct C as [ (-> & ->) | (-> & C2 & _) ].
    + destruct (IH (W ++ takeN n bs) (dropN n bs) q' HL) as (r & q2 & part & E2 & HL2 & Hc2 & C). rewrite E2. exists r, q2, (takeN n bs ++ part). split; [ reflexivity | ]. split; [ now rewrite app_assoc | ].
      split; [ congruence | ]. destruct C as [ (-> & ->) | (-> & C & _) ]; [ left; split; [ auto | apply takeN_dropN ] | right ]. split; [ auto | ]. split; [ | discriminate ].
      rewrite <- (takeN_dropN n bs) at 2. now apply cut_app.
    + exists (Err ESink), q', part. repeat (split; [ auto | ]). right. split; [ auto | ]. split; [ | discriminate ]. rewrite <- (takeN_dropN n bs). now apply cut_longer.
Qed.
Lemma write_lag base W bs q : lag base W q -> exists r q' part, buf_write bs q = (r, q') /\ lag base (W ++ part) q' /\ q_cap q' = q_cap q
  /\ (r = Ok tt /\ part = bs \/ r = Err ESink /\ cut_short part bs /\ (q_cuts q (q_calls q) = [] -> lenN bs < q_cap q -> part = [])).
Proof.
  intros H. unfold buf_write. set (q0 := {| q_out := _ |}). assert (H0 : lag base W q0) by (eapply lag_same; [ exact H | reflexivity | reflexivity ]). exact (pieces_lag base _ W bs q0 H0).
Qed.
Lemma then_lag {A} (f : sink -> res A * sink) a s' base W q : lag base W q -> f (put base W None) = (Ok a, s') -> sk_fuel s' = None ->
  (exists q', buf_then f q = (Ok a, q') /\ settled s' q') \/ (exists q', buf_then f q = (Err ESink, q') /\ (lag base W q' \/ settled (put base W None) q')).
Proof.
  intros H Hf HN'. unfold buf_then. destruct (flush_lag base W q H) as [ (q1 & E & HS & _) | (q1 & E & HL & _) ]; rewrite E; [ | right; eauto ]. destruct HS as (HN & E1 & B).
  destruct (shaky_call_cases f a s' (q_out q1)) as [ (pl & E2) | (pl & E2) ]; [ now rewrite E1 | | ]; rewrite E2; [ left | right ]; eexists; (split; [ reflexivity | ]).
  - split; [ auto | ]. auto.
  - right. split; [ auto | ]. auto.
Qed.
(** ... nothing waiting: a failure changes nothing. *)
Lemma then_settled {A} (f : sink -> res A * sink) a s' s q : settled s q -> f s = (Ok a, s') -> sk_fuel s' = None ->
  (exists q', buf_then f q = (Ok a, q') /\ settled s' q') \/ (exists q', buf_then f q = (Err ESink, q') /\ settled s q').
Proof.
  intros (HN & E & B) Hf HN'. unfold buf_then, flush_buf. rewrite B. cbn [shaky_write]. cbn [with_state q_out q_buf]. rewrite N.sub_diag, dropN_0.
  destruct (shaky_call_cases f a s' (q_out q)) as [ (pl & E2) | (pl & E2) ]; [ now rewrite E | | ]; rewrite E2; [ left | right ]; eexists; (split; [ reflexivity | ]); split; auto.
Qed.
Lemma drop_lag base W q : lag base W q -> exists k, k <= lenN W /\ buf_drop q = put base (takeN k W) None.
Proof.
  intros H. unfold buf_drop. destruct (flush_lag base W q H) as [ (q1 & E & HS & _) | (q1 & E & HL & _) ]; rewrite E; cbn [snd].
  - exists (lenN W). split; [ lia | ]. rewrite takeN_all by lia. apply HS.
  - destruct HL as (_ & k & Hk & E1 & _). eauto.
Qed.
Lemma drop_settled s q : settled s q -> buf_drop q = s.
Proof. intros (HN & E & B). unfold buf_drop, flush_buf. rewrite B. cbn [shaky_write snd with_state q_out]. exact E. Qed.

(** * Beginning and pushing *)
Lemma out_lag {A} (p : wprog A) base : forall b r W q, out_of p = Some (b, r) -> lag base W q ->
  exists r' q' part, run_spilling p q = (r', q') /\ lag base (W ++ part) q' /\ (r' = r /\ part = b \/ r' = Err ESink /\ cut_short part b).
Proof.
  induction p as [ r0 | bs k IH | k IH | n k IH | k IH ]; intros b r W q H HL; cbn [out_of] in H; try discriminate.
  - injection H as <- <-. exists r0, q, []. rewrite app_nil_r. cbn [run_spilling]. auto.
  - destruct (out_of k) as [ (b1, r1) | ]; [ | discriminate ]. injection H as <- <-. cbn [run_spilling].
    destruct (write_lag base W bs q HL) as (r & q1 & part & E & HL1 & _ & C). rewrite E. destruct C as [ (-> & ->) | (-> & C & _) ].
    + destruct (IH _ _ (W ++ bs) q1 eq_refl HL1) as (r' & q2 & part & E2 & HL2 & C). rewrite E2. exists r', q2, (bs ++ part). split; [ reflexivity | ]. split; [ now rewrite app_assoc | ].
      destruct C as [ (-> & ->) | (-> & C) ]; [ auto | right ]. split; [ auto | now apply cut_app ].
    + exists (Err ESink), q1, part. split; [ reflexivity | ]. split; [ auto | ]. right. split; [ auto | now apply cut_longer ].
Qed.
Lemma begin_lag c t d o h k s q b r : settled s q -> b <> [] -> begun_with c t d o h k s b r ->
  exists r' q' part, run_spilling (begin_p c t d o h k) q = (r', q') /\ lag s part q' /\ (r' = r /\ part = b \/ r' = Err ESink /\ cut_short part b).
Proof.
  intros HS Hne H. pose proof (proj1 HS) as HN. rewrite begin_p_rest. unfold begun_with in H. destruct k.
  - cbn [run_spilling]. destruct (then_settled sink_tell (sk_pos s) s s q HS) as [ (q1 & E & HS1) | (q1 & E & HS1) ]; [ unfold sink_tell; now rewrite tick_none | auto | | ]; rewrite E.
    + apply (out_lag _ s _ _ [] q1 H). now apply settled_lag.
    + exists (Err ESink), q1, []. split; [ reflexivity | ]. split; [ now apply settled_lag | ]. right. split; [ auto | ]. exists b. auto.
  - apply (out_lag _ s _ _ [] q H). now apply settled_lag.
Qed.
Lemma push_spilling c v w q bs r : w_num_items w + 1 < 2 ^ 64 -> write_one c (w_writer w) v = (bs, r) ->
  push_on (@run_spilling) c v w q = (let '(r', q') := run_spilling (WWrite bs (WRet r)) q in (r', with_count w (w_num_items w + 1), q')).
Proof. intros Hn E. unfold push_on. rewrite u64_add_small by auto. rewrite E. reflexivity. Qed.
Lemma pushes_lag c t d vs base : wf_dtype d -> strings_fit (c_usize_max c) d -> Forall (has_type t) vs -> forall w W q, writer c t d = DOk (w_writer w) ->
  w_num_items w + lenN vs < 2 ^ 64 -> lag base W q ->
  exists rs data q', push_each_on (@run_spilling) c vs w q = (rs, with_count w (w_num_items w + lenN vs), q') /\ lag base (W ++ data) q' /\ shaky_pushes t d vs rs data.
Proof.
  intros Hw Hs Hvs. induction Hvs as [ | v vs Hv Hvs IH ]; intros w W q Hr Hn HL.
  - exists [], [], q. cbn [push_each_on]. change (lenN (@nil val)) with 0. rewrite N.add_0_r, with_count_id, app_nil_r. split; [ auto | ]. split; [ auto | constructor ].
  - rewrite lenN_cons in *. cbn [push_each_on].
    assert (G : forall bs r, write_one c (w_writer w) v = (bs, r) ->
      (forall rs data, shaky_pushes t d vs rs data -> shaky_pushes t d (v :: vs) (r :: rs) (bs ++ data)) ->
      (forall part rs data, cut_short part bs -> shaky_pushes t d vs rs data -> shaky_pushes t d (v :: vs) (Err ESink :: rs) (part ++ data)) ->
      exists rs data q', (let '(r, w', y') := push_on (@run_spilling) c v w q in let '(rs, w'', y'') := push_each_on (@run_spilling) c vs w' y' in (r :: rs, w'', y''))
        = (rs, with_count w (w_num_items w + (lenN vs + 1)), q') /\ lag base (W ++ data) q' /\ shaky_pushes t d (v :: vs) rs data).
    { intros bs r E H1 H2. rewrite (push_spilling c v w q bs r) by (auto; lia).
      destruct (out_lag (WWrite bs (WRet r)) base bs r W q) as (r' & q1 & part & E1 & HL1 & C); auto; [ cbn [out_of]; now rewrite app_nil_r | ]. rewrite E1.
      destruct (IH (with_count w (w_num_items w + 1)) (W ++ part) q1 Hr) as (rs & data & q2 & E2 & HL2 & P); [ cbn [with_count w_num_items]; lia | auto | ]. rewrite E2.
      exists (r' :: rs), (part ++ data), q2. split; [ | split; [ now rewrite app_assoc | destruct C as [ (-> & ->) | (-> & C) ]; auto ] ]. f_equal. f_equal. cbn [with_count w_num_items].
      transitivity (with_count w (w_num_items w + 1 + lenN vs)); [ reflexivity | f_equal; lia ]. }
    replace (1 + lenN vs) with (lenN vs + 1) by lia.
    destruct (storable c t d (w_writer w) v Hw Hs Hr Hv) as [ (b & Eb & E) | (out & msg & Eu & E) ]; apply (G _ _ E); intros.
    + now constructor.
    + econstructor; eauto.
    + now constructor.
    + eapply sp_stopped; eauto.
Qed.

(** * One attempt at the end *)
(** [s] and [W]: the output at the beginning and all that was written.  Before the move to the header, after it, or with nothing waiting. *)
Inductive ending_state (s : sink) (L new old R : bytes) : N -> spilling -> Prop :=
| es_before q : lag s (L ++ old ++ R) q -> ending_state s L new old R 0 q
| es_header k base j q : held (sk_data s) (sk_pos s) L new old R k base -> sk_pos base = sk_pos s + lenN L -> j <= lenN new -> lag base (takeN j new) q ->
    ending_state s L new old R k q
| es_settled k base q : held (sk_data s) (sk_pos s) L new old R k base -> settled base q -> ending_state s L new old R k q.
Definition at_rest (s : sink) (L new old R : bytes) (k : N) (q : spilling) : Prop := exists base, held (sk_data s) (sk_pos s) L new old R k base /\ settled base q.
Section Attempt.
Context (w : npy_writer) (s : sink) (off : N) (L new old R : bytes).
Context (Hseek : w_seekable w = true) (Hstart : w_start_pos w = Some (sk_pos s)) (HL : bytes_before_text (w_version_props w) + off = lenN L)
  (Hlen : lenN new = lenN old) (HW : L ++ old ++ R <> []) (HNs : sk_fuel s = None).
Notation prog := (patching w off new).
Notation holds := (held (sk_data s) (sk_pos s) L new old R).
Notation state := (ending_state s L new old R).
Notation rest := (at_rest s L new old R).

Lemma hput k z j : holds k z -> sk_pos z = sk_pos s + lenN L -> j <= lenN new -> holds (N.max j k) (put z (takeN j new) None).
Proof. eapply holds_put; eauto. Qed.
Lemma holds_begun : holds 0 (put s (L ++ old ++ R) None).
Proof. split; [ reflexivity | ]. now rewrite mixed_0, put_nonempty. Qed.
Lemma rest_state k q : rest k q -> state k q.
Proof. intros (base & H1 & H2). eapply es_settled; eauto. Qed.
Lemma still_lag {A} (f : sink -> res A * sink) (a : sink -> A) k q : (forall z, sk_fuel z = None -> f z = (Ok (a z), z)) -> state k q ->
  exists k', k <= k' /\ ((exists x q', buf_then f q = (Ok x, q') /\ rest k' q') \/ (exists q', buf_then f q = (Err ESink, q') /\ state k' q')).
Proof.
  intros Hf H. destruct H as [ q H | k base j q H Hp Hj HLg | k base q H HS ].
  - exists 0. split; [ lia | ]. destruct (then_lag f (a (put s (L ++ old ++ R) None)) (put s (L ++ old ++ R) None) s _ q H (Hf (put s (L ++ old ++ R) None) eq_refl) eq_refl) as [ (q' & E & HS) | (q' & E & [ HS | HS ]) ].
    + left. eexists _, q'. split; [ exact E | ]. exists (put s (L ++ old ++ R) None). split; [ apply holds_begun | auto ].
    + right. exists q'. split; [ exact E | now constructor ].
    + right. exists q'. split; [ exact E | ]. eapply es_settled; eauto using holds_begun.
  - destruct (then_lag f (a (put base (takeN j new) None)) (put base (takeN j new) None) base _ q HLg (Hf (put base (takeN j new) None) eq_refl) eq_refl) as [ (q' & E & HS) | (q' & E & [ HS | HS ]) ].
    + exists (N.max j k). split; [ lia | ]. left. eexists _, q'. split; [ exact E | ]. eexists. split; [ | exact HS ]. apply hput; auto.
    + exists k. split; [ lia | ]. right. exists q'. split; [ exact E | ]. eapply es_header; eauto.
    + exists (N.max j k). split; [ lia | ]. right. exists q'. split; [ exact E | ]. eapply es_settled; [ | exact HS ]. apply hput; auto.
  - exists k. split; [ lia | ]. pose proof (proj1 HS) as HN. destruct (then_settled f (a base) base base q HS (Hf _ HN) HN) as [ (q' & E & HS') | (q' & E & HS') ].
    + left. eexists _, q'. split; [ exact E | ]. exists base. auto.
    + right. exists q'. split; [ exact E | ]. eapply es_settled; eauto.
Qed.
Lemma tell_still z : sk_fuel z = None -> sink_tell z = (Ok (sk_pos z), z).
Proof. intros H. unfold sink_tell. now rewrite tick_none. Qed.
Lemma flush_still z : sk_fuel z = None -> sink_flush z = (Ok tt, z).
Proof. intros H. unfold sink_flush. now rewrite tick_none. Qed.
Lemma seek_moves n z : sk_fuel z = None -> sink_seek n z = (Ok tt, {| sk_data := sk_data z; sk_pos := n; sk_fuel := None |}).
Proof. intros H. unfold sink_seek. rewrite tick_none by auto. now rewrite H. Qed.
Lemma attempt_lag k q : state k q -> exists r q' k', run_spilling prog q = (r, q') /\ k <= k'
  /\ (r = Ok tt /\ lenN new <= k' /\ rest k' q' \/ r = Err ESink /\ state k' q').
Proof.
  intros H. rewrite (prog_eq w (sk_pos s) off L new Hseek Hstart HL). cbn [run_spilling].
  destruct (still_lag sink_tell sk_pos k q tell_still H) as (k1 & Hk1 & [ (e & q1 & E & HR) | (q1 & E & HE) ]); rewrite E; [ | exists (Err ESink), q1, k1; auto ].
  destruct HR as (base & HB & HS). set (base1 := {| sk_data := sk_data base; sk_pos := sk_pos s + lenN L; sk_fuel := None |}).
  assert (HB1 : holds k1 base1) by (split; [ reflexivity | apply HB ]).
  destruct (then_settled (sink_seek (sk_pos s + lenN L)) tt base1 base q1 HS) as [ (q2 & E2 & HS2) | (q2 & E2 & HS2) ]; [ apply seek_moves, HS | reflexivity | | ]; rewrite E2.
  2:{ exists (Err ESink), q2, k1. split; [ auto | ]. split; [ auto | ]. right. split; [ auto | ]. eapply es_settled; [ exact HB | exact HS2 ]. }
  destruct (write_lag base1 [] new q2 (settled_lag _ _ HS2)) as (r & q3 & part & E3 & HL3 & _ & C). rewrite E3. cbn [app] in HL3. destruct C as [ (-> & ->) | (-> & C & _) ].
  2:{ exists (Err ESink), q3, k1. split; [ auto | ]. split; [ auto | ]. right. split; [ auto | ]. apply cut_take in C as (Ep & Hl). rewrite Ep in HL3. eapply es_header; [ exact HB1 | reflexivity | | exact HL3 ]. lia. }
  assert (HB2 : holds (N.max (lenN new) k1) (put base1 new None)) by (pose proof (hput k1 base1 (lenN new) HB1 eq_refl ltac:(lia)) as X; now rewrite takeN_all in X by lia).
  set (base3 := {| sk_data := sk_data (put base1 new None); sk_pos := e; sk_fuel := None |}). assert (HB3 : holds (N.max (lenN new) k1) base3) by (split; [ reflexivity | apply HB2 ]).
  destruct (then_lag (sink_seek e) tt base3 base1 new q3 HL3) as [ (q4 & E4 & HS4) | (q4 & E4 & HS4) ]; [ now rewrite seek_moves | reflexivity | | ]; rewrite E4.
  2:{ destruct HS4 as [ HL4 | HS4 ].
      - exists (Err ESink), q4, k1. split; [ auto | ]. split; [ auto | ]. right. split; [ auto | ]. eapply (es_header _ _ _ _ _ _ base1 (lenN new)); [ exact HB1 | reflexivity | lia | ]. now rewrite takeN_all by lia.
      - exists (Err ESink), q4, (N.max (lenN new) k1). split; [ auto | ]. split; [ lia | ]. right. split; [ auto | ]. eapply es_settled; [ exact HB2 | exact HS4 ]. }
  destruct (then_settled sink_flush tt base3 base3 q4 HS4) as [ (q5 & E5 & HS5) | (q5 & E5 & HS5) ]; [ now apply flush_still | reflexivity | | ]; rewrite E5.
  - exists (Ok tt), q5, (N.max (lenN new) k1). split; [ auto | ]. split; [ lia | ]. left. split; [ auto | ]. split; [ lia | ]. exists base3. auto.
  - exists (Err ESink), q5, (N.max (lenN new) k1). split; [ auto | ]. split; [ lia | ]. right. split; [ auto | ]. eapply es_settled; [ exact HB3 | exact HS5 ].
Qed.
(** What is left when the buffer is dropped. *)
Lemma state_drop k q : state k q -> (k = 0 /\ exists j, j <= lenN (L ++ old ++ R) /\ buf_drop q = put s (takeN j (L ++ old ++ R)) None) \/ (exists k', k <= k' /\ holds k' (buf_drop q)).
Proof.
  intros H. destruct H as [ q H | k base j q H Hp Hj HLg | k base q H HS ].
  - left. split; [ auto | ]. now apply drop_lag.
  - right. destruct (drop_lag _ _ _ HLg) as (i & Hi & E). rewrite lenN_takeN in Hi. rewrite E. exists (N.max (N.min i j) k). split; [ lia | ]. rewrite takeN_takeN. apply hput; auto. lia.
  - right. exists k. split; [ lia | ]. now rewrite (drop_settled _ _ HS).
Qed.
Lemma ended_lag e q : finish_p w = prog -> new <> [] -> state 0 q ->
  exists r q', ended_on (@run_spilling) e w q = (r, q')
  /\ ((exists k', holds k' (buf_drop q') /\ (r = Ok tt /\ (e = Finished -> lenN new <= k') \/ r = Err ESink /\ e = Finished))
      \/ (exists j, j <= lenN (L ++ old ++ R) /\ buf_drop q' = put s (takeN j (L ++ old ++ R)) None) /\ (r = Ok tt /\ e = Dropped \/ r = Err ESink /\ e = Finished)).
Proof.
  intros Ef Hne H. destruct (attempt_lag 0 q H) as (r1 & q1 & k1 & E1 & _ & C1).
  assert (H1 : state k1 q1) by (destruct C1 as [ (_ & _ & C) | (_ & C) ]; auto using rest_state).
  destruct e; cbn [ended_on].
  - destruct (attempt_lag k1 q1 H1) as (r2 & q2 & k2 & E2 & Hk2 & C2).
    assert (H2 : state k2 q2) by (destruct C2 as [ (_ & _ & C) | (_ & C) ]; auto using rest_state).
    exists r1, q2. unfold finish_on, drop_on. rewrite Ef, E1, E2. split; [ destruct C1 as [ (-> & _) | (-> & _) ], C2 as [ (-> & _) | (-> & _) ]; reflexivity | ].
    destruct (state_drop k2 q2 H2) as [ (-> & j & Hj & E) | (k' & Hk' & Hh) ].
    + right. split; [ eauto | ]. right. destruct C1 as [ (_ & Hl & _) | (-> & _) ]; [ | auto ]. exfalso. apply Hne. destruct new; [ auto | rewrite lenN_cons in Hl; lia ].
    + left. exists k'. split; [ exact Hh | ]. destruct C1 as [ (-> & Hl & _) | (-> & _) ]; [ left; split; auto; intros _; lia | auto ].
  - exists (Ok tt), q1. unfold drop_on. rewrite Ef, E1. split; [ destruct C1 as [ (-> & _) | (-> & _) ]; reflexivity | ].
    destruct (state_drop k1 q1 H1) as [ (-> & j & Hj & E) | (k' & Hk' & Hh) ].
    + right. split; eauto.
    + left. exists k'. split; [ exact Hh | ]. left. split; [ auto | discriminate ].
Qed.
End Attempt.

(** * The end *)
Lemma lag_part base W q : lag base W q -> sk_pos base <= lenN (sk_data base) -> exists file, part_of file W /\ placed (sk_data base) (sk_pos base) file (sk_data (buf_drop q)).
Proof.
  intros H Hp. destruct (drop_lag base W q H) as (k & _ & E). exists (takeN k W). split; [ exists (dropN k W); now rewrite takeN_dropN | ]. rewrite E.
  destruct (takeN k W) as [ | x l ] eqn:El; [ rewrite put_nil; cbn [sk_data]; symmetry; now apply overwrite_empty | now apply placed_put ].
Qed.
Lemma ended_nothing_lag e w r q : finish_p w = WRet r -> ended_on (@run_spilling) e w q = (match e, r with Dropped, Err _ => Ok tt | _, _ => r end, q).
Proof.
  intros E. destruct e; cbn [ended_on]; unfold finish_on, drop_on; rewrite E; cbn [run_spilling].
  - destruct r as [ [] | | ]; reflexivity.
  - destruct r as [ [] | | ]; reflexivity.
Qed.
Lemma ended_flush_lag e w q s W : finish_p w = WFlush (WRet (Ok tt)) -> lag s W q ->
  exists r q', ended_on (@run_spilling) e w q = (r, q') /\ lag s W q' /\ (r = Ok tt /\ (e = Finished -> settled (put s W None) q') \/ r = Err ESink /\ e = Finished).
Proof.
  intros E H. assert (F : forall z, lag s W z -> exists r z', run_spilling (finish_p w) z = (r, z') /\ lag s W z' /\ (r = Ok tt /\ settled (put s W None) z' \/ r = Err ESink)).
  { intros z Hz. rewrite E. cbn [run_spilling]. destruct (then_lag sink_flush tt (put s W None) s W z Hz (flush_still (put s W None) eq_refl) eq_refl) as [ (z' & E1 & HS) | (z' & E1 & [ HS | HS ]) ]; rewrite E1;
      eexists _, z'; (split; [ reflexivity | ]); split; auto; apply settled_put; auto; apply Hz. }
  assert (S' : forall z, settled (put s W None) z -> exists r z', run_spilling (finish_p w) z = (r, z') /\ settled (put s W None) z' /\ (r = Ok tt \/ r = Err ESink)).
  { intros z Hz. rewrite E. cbn [run_spilling]. destruct (then_settled sink_flush tt (put s W None) _ z Hz (flush_still (put s W None) eq_refl) eq_refl) as [ (z' & E1 & HS) | (z' & E1 & HS) ]; rewrite E1; eauto 6. }
  destruct (F q H) as (r1 & q1 & E1 & H1 & C1). destruct e; cbn [ended_on]; unfold finish_on, drop_on; rewrite E1.
  - destruct C1 as [ (-> & HS) | -> ].
    + destruct (S' q1 HS) as (r2 & q2 & E2 & HS2 & C2). rewrite E2. exists (Ok tt), q2. split; [ destruct C2 as [ -> | -> ]; reflexivity | ]. split; [ apply settled_put; auto; apply H | auto ].
    + destruct (F q1 H1) as (r2 & q2 & E2 & H2 & C2). rewrite E2. exists (Err ESink), q2. split; [ destruct C2 as [ (-> & _) | -> ]; reflexivity | auto ].
  - exists (Ok tt), q1. split; [ destruct C1 as [ (-> & _) | -> ]; reflexivity | ]. split; [ auto | ]. left. split; [ auto | discriminate ].
Qed.
Lemma ends_lag c t d o h s w b n data e q : wf_dtype d -> hint_ok h -> n < 2 ^ 64 -> sk_fuel s = None -> sk_pos s <= lenN (sk_data s) -> b <> [] ->
  begin_ c t d o h (output_kind h) s = (Ok w, put s b None) -> lag s (b ++ data) q ->
  exists r q' file, ended_on (@run_spilling) e (with_count w n) q = (r, q') /\ spilled_ends d o h n data e r file
  /\ placed (sk_data s) (sk_pos s) file (sk_data (buf_drop q')).
Proof.
  intros Hw Hh Hn HN Hp Hb0 Hb Hq. assert (Hg : growing h \/ exists shape, h = NDimensional shape) by (destruct h; cbn; eauto). destruct Hg as [ Hg | (shape & ->) ].
  - replace (output_kind h) with true in Hb by (destruct h; [ destruct Hg | | ]; reflexivity).
    destruct (begin_growing c t d o h s w _ Hg Hb) as (Ht & _ & L & pad & props & Hs1).
    apply (put_growing _ _ _ _ _ _ _ _ _ _ _ n data None) in Hs1.
    assert (Hc : with_count w (w_num_items w + n) = with_count w n).
    { pose proof (gs_count _ _ _ _ _ _ _ _ _ _ _ Hs1) as E. cbn [with_count w_num_items] in E. f_equal. exact E. }
    rewrite Hc, N.add_0_l in Hs1. cbn [app] in Hs1.
    set (old := suffix o h filler) in *. set (R := repeatN 32 pad ++ [10] ++ data).
    assert (EW : b ++ data = L ++ old ++ R).
    { pose proof (gs_data _ _ _ _ _ _ _ _ _ _ _ Hs1) as Hd. pose proof (gs_pos _ _ _ _ _ _ _ _ _ _ _ Hs1) as Hps. rewrite put_put in Hd, Hps. cbn [put sk_pos] in Hps.
      rewrite put_nonempty in Hd by (destruct b; [ congruence | discriminate ]). eapply overwrite_inj; [ | exact Hd ]. fold old in Hps. fold R in Hps. lia. }
    rewrite EW in Hq.
    assert (HU : forall j, begun_file d o h data (L ++ old ++ R) -> unfinished d o h data (takeN j (L ++ old ++ R)) /\ placed (sk_data s) (sk_pos s) (takeN j (L ++ old ++ R)) (sk_data (put s (takeN j (L ++ old ++ R)) None))).
    { intros j HB. split; [ eexists; split; [ exact HB | ]; eexists; symmetry; apply takeN_dropN | ].
      destruct (takeN j (L ++ old ++ R)) as [ | x l ] eqn:El; [ rewrite put_nil; cbn [sk_data]; symmetry; now apply overwrite_empty | now apply placed_put ]. }
    pose proof (finish_p_growing d o h (with_count w n) n Hg (gs_info _ _ _ _ _ _ _ _ _ _ _ Hs1) eq_refl Hn) as HF. destruct (final_shape h o n) as [ shape | ] eqn:Ef.
    + destruct HF as (EF & Esh & Hax). destruct (mixed_file c d o h s n data _ _ L pad props shape Hg Hh Hw Ht Hs1 Hn Ef) as (Hlen & HB & HE).
      set (new := suffix o h (dec (variable_axis h n))) in *. fold old in Hlen, HB.
      rewrite <- app_assoc in HB, HE. cbn [app] in HB, HE. change (10 :: data) with ([10] ++ data) in HB, HE. fold R in HB, HE.
      assert (HL : bytes_before_text (w_version_props (with_count w n)) + lenN (dict_prefix d o) = lenN L).
      { rewrite (gs_props _ _ _ _ _ _ _ _ _ _ _ Hs1). symmetry. apply (gs_len _ _ _ _ _ _ _ _ _ _ _ Hs1). }
      assert (HWne : L ++ old ++ R <> []) by (rewrite <- EW; destruct b; [ congruence | discriminate ]).
      assert (Hnew : new <> []) by now apply suffix_nonempty.
      destruct (ended_lag (with_count w n) s _ L new old R (gs_seekable _ _ _ _ _ _ _ _ _ _ _ Hs1) (gs_start _ _ _ _ _ _ _ _ _ _ _ Hs1) HL Hlen HWne HN e q EF Hnew (es_before _ _ _ _ _ _ Hq))
        as (r & q' & E & [ (k & (_ & Hd) & Hr) | ((j & Hj & Hd) & Hr) ]).
      * exists r, q', (L ++ mixed k new old ++ R). split; [ exact E | ]. split; [ | exact Hd ].
        assert (HM : half_patched d o h shape data (L ++ mixed k new old ++ R)).
        { exists (lenN L + k), (L ++ old ++ R), (L ++ new ++ R). split; [ exact HB | ]. split; [ exact HE | ]. split; [ rewrite !lenN_app; lia | ]. fold (mixed (lenN L + k) (L ++ new ++ R) (L ++ old ++ R)).
          rewrite mixed_middle by auto. now replace (lenN L + k - lenN L) with k by lia. }
        destruct Hr as [ (-> & Hk) | (-> & ->) ]; [ destruct e | ].
        -- rewrite mixed_all by (auto; apply Hk; auto). eapply sl_finished; eauto.
        -- eapply sl_dropped; eauto.
        -- eapply sl_failed; eauto.
      * exists r, q', (takeN j (L ++ old ++ R)). split; [ exact E | ]. destruct (HU j HB) as (HU1 & HU2). rewrite Hd. split; [ | exact HU2 ]. destruct Hr as [ (-> & ->) | (-> & ->) ].
        -- eapply sl_dropped; eauto.
        -- eapply sl_failed; eauto.
    + destruct HF as (r & -> & EF). rewrite (ended_nothing_lag e _ _ q EF).
      assert (HB : begun_file d o (TwoDimensional r) data (L ++ old ++ R)).
      { pose proof (gs_headers _ _ _ _ _ _ _ _ _ _ _ Hs1 filler (proj1 filler_ok) (proj2 filler_ok)) as H1. destruct (begun_dict c d o _ _ _ Hh (create_growing c d o _ Hg)) as (sh & Hsh & Ed). rewrite Ed in H1.
        unfold R. replace (L ++ old ++ repeatN 32 pad ++ [10] ++ data) with ((L ++ old ++ repeatN 32 pad ++ [10]) ++ data) by (rewrite <- !app_assoc; reflexivity). eapply begun_header; eauto. }
      destruct (lag_part _ _ _ Hq Hp) as (file & Hpt & Hpl). eexists _, q, file. split; [ reflexivity | ]. split; [ | exact Hpl ].
      assert (HUn : unfinished d o (TwoDimensional r) data file) by (eexists; split; [ exact HB | exact Hpt ]).
      destruct (N.eqb_spec r 0) as [ -> | Hr ]; [ destruct e; now apply sl_dividing | ].
      cbn [final_shape] in Ef. replace (r =? 0) with false in Ef by lia. cbn [orb] in Ef. destruct (N.eqb_spec (n mod r) 0) as [ | Hm ]; [ discriminate | ].
      assert (CC : count_complaint (TwoDimensional r) n (dec n ++ lit " item(s) is not divisible by " ++ dec r ++ lit "!")) by (constructor; auto using dec_shortest).
      destruct e; [ now apply sl_miscounted | eapply sl_silently; eauto ].
  - change (output_kind (NDimensional shape)) with false in Hb. destruct (known_begun c t d o shape s w _ n data Hh Hw Hb eq_refl) as (hdr & Ep & Hne & HB & HBE & EF).
    assert (EW : b ++ data = hdr ++ data).
    { rewrite put_put in Ep. assert (Hl : lenN (b ++ data) = lenN (hdr ++ data)) by (apply (f_equal sk_pos) in Ep; cbn [put sk_pos] in Ep; lia). apply (f_equal sk_data) in Ep.
      rewrite !put_nonempty in Ep by (intros E; apply app_eq_nil in E as (E & _); congruence). eapply overwrite_inj; eauto. }
    rewrite EW in Hq. assert (HU : forall z, lag s (hdr ++ data) z -> exists file, unfinished d o (NDimensional shape) data file /\ placed (sk_data s) (sk_pos s) file (sk_data (buf_drop z))).
    { intros z Hz. destruct (lag_part _ _ _ Hz Hp) as (file & Hpt & Hpl). exists file. split; [ eexists; split; [ exact HB | exact Hpt ] | exact Hpl ]. }
    destruct (N.eqb_spec (count shape) n) as [ En | En ].
    + assert (Ef : final_shape (NDimensional shape) o n = Some shape) by (cbn [final_shape]; now replace (count shape =? n) with true by lia).
      destruct (ended_flush_lag e (with_count w n) q s _ EF Hq) as (r & q' & E & HL' & Hr). destruct Hr as [ (-> & HS) | (-> & ->) ]; [ destruct e | ].
      * specialize (HS eq_refl). exists (Ok tt), q', (hdr ++ data). split; [ exact E | ]. split; [ eapply sl_finished; [ exact Ef | now apply HBE ] | ]. rewrite (drop_settled _ _ HS).
        apply placed_put. intros E0; apply app_eq_nil in E0 as (E0 & _); congruence.
      * destruct (HU q' HL') as (file & HU1 & HU2). exists (Ok tt), q', file. split; [ exact E | ]. split; [ eapply sl_dropped; eauto | exact HU2 ].
      * destruct (HU q' HL') as (file & HU1 & HU2). exists (Err ESink), q', file. split; [ exact E | ]. split; [ eapply sl_failed; eauto | exact HU2 ].
    + destruct (HU q Hq) as (file & HU1 & HU2). rewrite (ended_nothing_lag e (with_count w n) _ q EF). exists (match e with Dropped => Ok tt | _ => Err (wrong_count (count shape) n) end), q, file.
      split; [ destruct e; reflexivity | ]. split; [ | exact HU2 ].
      assert (CC : count_complaint (NDimensional shape) n (lit "shape has " ++ dec (count shape) ++ lit " item(s), but " ++ dec n ++ lit " item(s) were written!")) by (constructor; auto using dec_shortest).
      destruct e; [ now apply sl_miscounted | eapply sl_silently; eauto ].
Qed.

(** * Whole sessions *)
Lemma spill_sound cap cuts c t d o h vs e s plan : wf_dtype d -> strings_fit (c_usize_max c) d -> top_level d -> Forall (has_type t) vs -> lenN vs < 2 ^ 64 ->
  hint_ok h -> short_header d h -> sk_fuel s = None -> sk_pos s <= lenN (sk_data s) ->
  exists r s' file, spilling_session cap cuts c t d o h (output_kind h) vs e {| y_out := s; y_plan := plan |} = (r, s')
  /\ spilled_outcome (c_usize_max c) t d o h vs e r file /\ placed (sk_data s) (sk_pos s) file (sk_data s').
Proof.
  intros Hw Hsf Ht Hvs Hn Hh Hs HN Hp. set (q0 := buf_new cap cuts {| y_out := s; y_plan := plan |}). assert (H0 : settled s q0) by (split; auto).
  destruct (begun_bytes c t d o h s Hw Ht Hh Hs HN) as (b & r & H & Eb & HB & Hne & C). unfold spilling_session, session_on. fold q0.
  destruct (begin_lag c t d o h (output_kind h) s q0 b r H0 Hne H) as (r' & q1 & part & E & HL & Hc). rewrite E. destruct Hc as [ (-> & ->) | (-> & Hc) ].
  - destruct C as [ (w & -> & Hwr & Hz & A) | (msg & -> & M) ].
    + destruct (pushes_lag c t d vs s Hw Hsf Hvs w b q1 Hwr) as (rs & data & q2 & E2 & HL2 & HP); [ rewrite Hz; lia | auto | ]. rewrite E2, Hz, N.add_0_l.
      destruct (ends_lag c t d o h s w b (lenN vs) data e q2 Hw Hh Hn HN Hp Hne Eb HL2) as (r & q3 & file & E3 & H1 & H2).
      rewrite E3. eexists _, _, file. split; [ reflexivity | ]. split; [ econstructor; eauto | exact H2 ].
    + destruct (lag_part _ _ _ HL Hp) as (file & Hpt & Hpl). eexists _, _, file. split; [ reflexivity | ]. split; [ | exact Hpl ]. apply so_unwanted; [ auto | ]. exists b. auto.
  - destruct (lag_part _ _ _ HL Hp) as (file & (rest & Hpt) & Hpl). eexists _, _, file. split; [ reflexivity | ]. split; [ | exact Hpl ]. eapply so_never_begun; [ exact HB | ].
    destruct Hc as (rest' & -> & Hr). exists (rest ++ rest'). split; [ rewrite Hpt, app_assoc; reflexivity | ]. destruct rest; [ auto | discriminate ].
Qed.
Lemma spill_success cap cuts c t d o h vs s plan rs s' : wf_dtype d -> strings_fit (c_usize_max c) d -> top_level d -> Forall (has_type t) vs -> lenN vs < 2 ^ 64 ->
  hint_ok h -> short_header d h -> sk_fuel s = None -> sk_pos s <= lenN (sk_data s) ->
  spilling_session cap cuts c t d o h (output_kind h) vs Finished {| y_out := s; y_plan := plan |} = (Ok (rs, Ok tt), s') -> Forall (eq (Ok tt)) rs ->
  exists shape payload file, final_shape h o (lenN vs) = Some shape /\ encodings t d vs payload /\ finished_file d o h shape payload file
  /\ placed (sk_data s) (sk_pos s) file (sk_data s').
Proof.
  intros Hw Hsf Ht Hvs Hn Hh Hs HN Hp H HF. destruct (spill_sound cap cuts c t d o h vs Finished s plan Hw Hsf Ht Hvs Hn Hh Hs HN Hp) as (r & y & file & E & HO & HP).
  rewrite H in E. apply pair_inj in E as (<- & <-). inversion HO as [ | | rs' r' data file' A HPs HE ]; subst. inversion HE as [ shape f Ef Hf | | | | | ]; subst.
  exists shape, data, file. split; [ auto | ]. split; [ eapply all_good; eauto | auto ].
Qed.
Lemma spill_short cap cuts c c' t t' d o h vs plan rs s' f src' items : wf_dtype d -> strings_fit (c_usize_max c) d -> strings_fit (c_usize_max c') d -> top_level d -> Forall (has_type t) vs -> lenN vs < 2 ^ 64 ->
  hint_ok h -> short_header d h -> (exists n, num_bytes c' d = Some n) ->
  spilling_session cap cuts c t d o h (output_kind h) vs Finished {| y_out := empty_sink; y_plan := plan |} = (Ok (rs, Ok tt), s') -> In (Err ESink) rs ->
  npy_new c' {| cur_data := sk_data s'; cur_pos := 0 |} = (Ok f, src') -> fst (npy_into_vec c' t' f) <> Ok items.
Proof.
  intros Hw Hsf Hsf' Ht Hvs Hn Hh Hs Hnb H HF. destruct (spill_sound cap cuts c t d o h vs Finished empty_sink plan Hw Hsf Ht Hvs Hn Hh Hs eq_refl (N.le_refl _)) as (r & y & file & E & HO & HP).
  rewrite H in E. apply pair_inj in E as (<- & <-). inversion HO as [ | | rs' r' data file' A HPs HE ]; subst. inversion HE as [ shape f' Ef Hf | | | | | ]; subst.
  destruct (stopped_len _ _ _ _ _ _ A Hvs HPs) as (B & _ & Hlt). specialize (Hlt HF). destruct (final_ok h o (lenN vs) shape Hh Hn Ef) as (F1 & F2 & F3).
  assert (Efile : sk_data s' = file).
  { unfold placed in HP. cbn [empty_sink sk_data sk_pos] in HP. rewrite HP. change (lenN (@nil N)) with 0. rewrite dropN_all by (change (lenN (@nil N)) with 0; lia). apply app_nil_r. }
  rewrite Efile. eapply short_file; eauto using finished_opens, finished_bytes. rewrite F3. lia.
Qed.
Lemma spill_safe cap cuts c c' t d o h vs e D plan r s' : wf_dtype d -> strings_fit (c_usize_max c) d -> top_level d -> Forall (has_type t) vs -> lenN vs < 2 ^ 64 ->
  hint_ok h -> short_header d h -> unmistakable o h (lenN vs) -> (exists n, num_bytes c' d = Some n) ->
  spilling_session cap cuts c t d o h (output_kind h) vs e {| y_out := {| sk_data := D; sk_pos := lenN D; sk_fuel := None |}; y_plan := plan |} = (r, s') ->
  (forall rs r', r = Ok (rs, r') -> Forall (eq (Ok tt)) rs) -> whole_or_error c' t d o h vs (sk_data s') (lenN D).
Proof.
  intros Hw Hsf Ht Hvs Hn Hh Hs Hu Hnb H HF. set (s := {| sk_data := D; sk_pos := lenN D; sk_fuel := None |}) in *.
  destruct (spill_sound cap cuts c t d o h vs e s plan Hw Hsf Ht Hvs Hn Hh Hs eq_refl (N.le_refl _)) as (r0 & y & file & E & HO & HP).
  rewrite H in E. apply pair_inj in E as (<- & <-). unfold placed in HP. change (sk_data s' = overwrite D (lenN D) file) in HP. rewrite overwrite_end in HP. rewrite HP.
  assert (Hg : growing h) by (destruct h; [ destruct Hu | exact I | exact I ]).
  assert (HUN : forall data f, unfinished d o h data f -> whole_or_error c' t d o h vs (D ++ f) (lenN D)).
  { intros data f (whole & HB & (rest & ->)). apply error_fine. pose proof (begun_rejected c' d o h data _ Hg Hh Hw Ht HB []) as X. rewrite app_nil_r in X. now apply prefix_error in X. }
  destruct HO as [ whole file HW (rest & -> & _) | msg file HM HB | rs r data file A HPs HE ].
  - apply (HUN []). eexists. split; [ exact HW | ]. exists rest. auto.
  - eauto.
  - specialize (HF _ _ eq_refl). apply (all_good _ _ _ _ _ HPs) in HF.
    assert (G : forall shape f, final_shape h o (lenN vs) = Some shape -> half_patched d o h shape data f -> whole_or_error c' t d o h vs (D ++ f) (lenN D)).
    { intros shape f Ef HM. destruct (unmistakable_roomy o h (lenN vs) shape Hh Hn Hu Ef) as (_ & Hr). eapply half_patched_safe; eauto. }
    destruct HE as [ shape file Ef Hf | shape file Ef [ HM | HM ] | shape file Ef [ HM | HM ] | msg file HC HB | msg file HC HB | e file -> HB ]; eauto.
    apply (G shape); [ auto | ]. pose proof A as A'. apply writer_accepts in A' as (tw & Htw). destruct (create_short c d o h Hh Hs) as (dict & info & Hc & Hfi).
    destruct (begin_ok_intro c t d o h true s dict info tw Ht Hc Hfi Htw eq_refl) as (w & hdr & Hb). destruct (begin_growing c t d o h _ w _ Hg Hb) as (_ & _ & L & pad & props & Hs1).
    apply (put_growing _ _ _ _ _ _ _ _ _ _ _ (lenN vs) data None) in Hs1. rewrite N.add_0_l in Hs1. cbn [app] in Hs1.
    destruct (mixed_file c d o h _ (lenN vs) data _ _ L pad props shape Hg Hh Hw Ht Hs1 Hn Ef) as (Hlen & HB & HE). rewrite (finished_unique _ _ _ _ _ _ _ Hw Hf HE).
    match type of HE with finished_file _ _ _ _ _ ?n => match type of HB with begun_file _ _ _ _ ?o => exists (lenN n), o, n; split; [ exact HB | ]; split; [ exact HE | ];
      assert (X : lenN o = lenN n) by (rewrite !lenN_app; lia); split; [ exact X | ]; symmetry; apply (mixed_all (lenN n) n o); auto; lia end end.
Qed.

(** * Sessions that run alike *)
Lemma session_sim {S1 S2} (E1 : forall A, wprog A -> S1 -> res A * S1) (E2 : forall A, wprog A -> S2 -> res A * S2) (R : S1 -> S2 -> Prop) :
  (forall A (p : wprog A) a b, R a b -> fst (E1 A p a) = fst (E2 A p b) /\ R (snd (E1 A p a)) (snd (E2 A p b))) ->
  forall c t d o h k vs e a b, R a b -> fst (session_on E1 c t d o h k vs e a) = fst (session_on E2 c t d o h k vs e b)
  /\ R (snd (session_on E1 c t d o h k vs e a)) (snd (session_on E2 c t d o h k vs e b)).
Proof.
  intros H c t d o h k vs e a b Hab.
  assert (D : forall w a b, R a b -> fst (drop_on E1 w a) = fst (drop_on E2 w b) /\ R (snd (drop_on E1 w a)) (snd (drop_on E2 w b))).
  { intros w x y Hxy. unfold drop_on. destruct (H _ (finish_p w) x y Hxy) as (HE & HR). destruct (E1 unit (finish_p w) x) as (r1, x1), (E2 unit (finish_p w) y) as (r2, y1). cbn [fst snd] in *. subst r2.
    destruct r1; auto. }
  assert (P : forall vs w a b, R a b -> exists rs w' a' b', push_each_on E1 c vs w a = (rs, w', a') /\ push_each_on E2 c vs w b = (rs, w', b') /\ R a' b').
  { induction vs0 as [ | v vs0 IH ]; intros w x y Hxy; cbn [push_each_on]; [ eauto 8 | ]. unfold push_on. destruct (u64_add c (w_num_items w) 1) as [ m | er | ].
    - destruct (write_one c (w_writer w) v) as (bs, r). destruct (H _ (WWrite bs (WRet r)) x y Hxy) as (HE & HR).
      destruct (E1 unit (WWrite bs (WRet r)) x) as (r1, x1), (E2 unit (WWrite bs (WRet r)) y) as (r2, y1). cbn [fst snd] in *. subst r2.
      match goal with |- context [push_each_on E1 c vs0 ?w' x1] => destruct (IH w' x1 y1 HR) as (rs & w2 & x2 & y2 & -> & -> & HR2) end. eauto 8.
    - destruct (IH w x y Hxy) as (rs & w2 & x2 & y2 & -> & -> & HR2). eauto 8.
    - destruct (IH w x y Hxy) as (rs & w2 & x2 & y2 & -> & -> & HR2). eauto 8. }
  unfold session_on. destruct (H _ (begin_p c t d o h k) a b Hab) as (HE & HR). destruct (E1 _ (begin_p c t d o h k) a) as (r1, a1), (E2 _ (begin_p c t d o h k) b) as (r2, b1). cbn [fst snd] in *. subst r2.
  destruct r1 as [ w | | ]; [ | auto | auto ]. destruct (P vs w a1 b1 HR) as (rs & w' & a2 & b2 & -> & -> & HR2). destruct e; cbn [ended_on].
  - unfold finish_on. destruct (H _ (finish_p w') a2 b2 HR2) as (HE3 & HR3). destruct (E1 unit (finish_p w') a2) as (r1, a3), (E2 unit (finish_p w') b2) as (r2, b3). cbn [fst snd] in *. subst r2.
    destruct (D w' a3 b3 HR3) as (HE4 & HR4). destruct (drop_on E1 w' a3) as (r3, a4), (drop_on E2 w' b3) as (r4, b4). cbn [fst snd] in *. subst r4. destruct r1, r3; auto.
  - destruct (D w' a2 b2 HR2) as (HE4 & HR4). destruct (drop_on E1 w' a2) as (r3, a4), (drop_on E2 w' b2) as (r4, b4). cbn [fst snd] in *. subst r4. auto.
Qed.

(** A buffer that holds nothing is no buffer. *)
Definition open (q : spilling) (y : shaky) : Prop := q_out q = y /\ q_buf q = [] /\ q_cap q = 0 /\ forall i, q_cuts q i = [].
Lemma open_flush q y : open q y -> exists q', flush_buf q = (Ok tt, q') /\ open q' y.
Proof. intros (<- & B & C & K). unfold flush_buf. rewrite B. cbn [shaky_write]. eexists. split; [ reflexivity | ]. split; [ reflexivity | ]. split; [ now rewrite N.sub_diag | auto ]. Qed.
Lemma open_run A (p : wprog A) : forall q y, open q y -> fst (run_spilling p q) = fst (run_shaky p y) /\ open (snd (run_spilling p q)) (snd (run_shaky p y)).
Proof.
  assert (W : forall bs q y, open q y -> exists q', buf_write bs q = (fst (shaky_write bs y), q') /\ open q' (snd (shaky_write bs y))).
  { intros bs q y (<- & B & C & K). unfold buf_write. rewrite K. cbn [buf_pieces]. set (q0 := {| q_out := _ |}). assert (H0 : open q0 (q_out q)) by (repeat split; auto).
    unfold buf_write_all. destruct (open_flush q0 _ H0) as (q1 & E1 & H1). destruct H0 as (O0 & B0 & C0 & K0). rewrite C0, B0. change (lenN (@nil N)) with 0.
    replace (lenN bs <? 0 - 0) with false by lia.
    destruct (0 - 0 <? lenN bs).
    - rewrite E1. replace (0 <=? lenN bs) with true by lia. destruct H1 as (O1 & B1 & C1 & K1). rewrite O1. destruct (shaky_write bs (q_out q)) as (r, y'). eexists. split; [ reflexivity | ]. repeat split; auto.
    - replace (0 <=? lenN bs) with true by lia. rewrite O0. destruct (shaky_write bs (q_out q)) as (r, y'). eexists. split; [ reflexivity | ]. repeat split; auto. }
  assert (T : forall B (f : sink -> res B * sink) q y, open q y -> exists q', buf_then f q = (fst (shaky_call f y), q') /\ open q' (snd (shaky_call f y))).
  { intros B f q y H. unfold buf_then. destruct (open_flush q y H) as (q1 & -> & (<- & B1 & C1 & K1)). destruct (shaky_call f (q_out q1)) as (r, y'). eexists. split; [ reflexivity | ]. repeat split; auto. }
  induction p as [ r | bs k IH | k IH | n k IH | k IH ]; intros q y H; cbn [run_spilling run_shaky].
  - auto.
  - destruct (W bs q y H) as (q' & -> & H'). destruct (shaky_write bs y) as ([ | | ], y'); cbn [fst snd] in *; auto.
  - destruct (T _ sink_tell q y H) as (q' & -> & H'). destruct (shaky_call sink_tell y) as ([ | | ], y'); cbn [fst snd] in *; auto.
  - destruct (T _ (sink_seek n) q y H) as (q' & -> & H'). destruct (shaky_call (sink_seek n) y) as ([ | | ], y'); cbn [fst snd] in *; auto.
  - destruct (T _ sink_flush q y H) as (q' & -> & H'). destruct (shaky_call sink_flush y) as ([ | | ], y'); cbn [fst snd] in *; auto.
Qed.
Lemma spill_unbuffered cuts c t d o h k vs e y : (forall i, cuts i = []) ->
  spilling_session 0 cuts c t d o h k vs e y = (let '(r, y') := session_on (@run_shaky) c t d o h k vs e y in (r, y_out y')).
Proof.
  intros K. unfold spilling_session. destruct (session_sim (@run_spilling) (@run_shaky) open open_run c t d o h k vs e (buf_new 0 cuts y) y) as (E & H); [ repeat split; auto | ].
  destruct (session_on (@run_spilling) c t d o h k vs e (buf_new 0 cuts y)) as (r, q), (session_on (@run_shaky) c t d o h k vs e y) as (r', y'). cbn [fst snd] in *. subst r'. f_equal.
  unfold buf_drop. destruct (open_flush q y' H) as (q' & -> & (<- & _)). reflexivity.
Qed.

(** An output that works: nothing shows that there is a buffer. *)
Definition quiet (q : spilling) (s : sink) : Prop := sk_fuel s = None /\ sk_fuel (y_out (q_out q)) = None /\ Forall (eq None) (y_plan (q_out q)) /\ s = put (y_out (q_out q)) (q_buf q) None.
Lemma quiet_write bs y : sk_fuel (y_out y) = None -> Forall (eq None) (y_plan y) -> exists plan, shaky_write bs y = (Ok tt, on (put (y_out y) bs None) plan) /\ Forall (eq None) plan.
Proof.
  intros HN H. unfold shaky_write. destruct bs as [ | x bs ]; [ exists (y_plan y); rewrite put_same by auto; destruct y; auto | ].
  destruct (y_plan y) as [ | [ j | ] pl ]; inversion H; subst; try discriminate; cbn [tl]; rewrite sink_write_none by auto; eexists; split; try reflexivity; auto.
Qed.
Lemma quiet_flush q s : quiet q s -> exists q', flush_buf q = (Ok tt, q') /\ q_buf q' = [] /\ q_cap q' = q_cap q /\ y_out (q_out q') = s /\ Forall (eq None) (y_plan (q_out q')) /\ quiet q' s.
Proof.
  intros (HN & HN' & HP & E). unfold flush_buf. destruct (quiet_write (q_buf q) (q_out q) HN' HP) as (pl & W & HP'). rewrite W. cbn [on y_out put sk_pos].
  replace (sk_pos (y_out (q_out q)) + lenN (q_buf q) - sk_pos (y_out (q_out q))) with (lenN (q_buf q)) by lia. rewrite dropN_all by lia.
  eexists. split; [ reflexivity | ]. cbn [with_state q_buf q_out q_cap y_out y_plan]. split; [ auto | ]. split; [ auto | ]. split; [ auto | ]. split; [ auto | ].
  split; [ auto | ]. split; [ reflexivity | ]. split; [ auto | ]. cbn [with_state q_buf q_out y_out]. rewrite put_same by reflexivity. exact E.
Qed.
Lemma quiet_direct q s bs : quiet q s -> q_buf q = [] -> exists q', (let '(r, y) := shaky_write bs (q_out q) in (r, with_state q y (q_buf q))) = (Ok tt, q') /\ quiet q' (put s bs None).
Proof.
  intros (HN & HN' & HP & E) B. destruct (quiet_write bs (q_out q) HN' HP) as (pl & W & HP'). rewrite W. eexists. split; [ reflexivity | ]. split; [ reflexivity | ]. split; [ reflexivity | ]. split; [ exact HP' | ].
  cbn [with_state q_buf q_out on y_out]. rewrite B in *. rewrite E, !put_put, app_nil_r. reflexivity.
Qed.
Lemma quiet_keep q s bs : quiet q s -> quiet (with_state q (q_out q) (q_buf q ++ bs)) (put s bs None).
Proof. intros (HN & HN' & HP & E). split; [ reflexivity | ]. split; [ auto | ]. split; [ auto | ]. cbn [with_state q_buf q_out]. rewrite E, put_put. reflexivity. Qed.
Lemma quiet_write_all bs q s : quiet q s -> exists q', buf_write_all bs q = (Ok tt, q') /\ quiet q' (put s bs None).
Proof.
  intros H. unfold buf_write_all. destruct (N.ltb_spec (lenN bs) (q_cap q - lenN (q_buf q))); [ eexists; split; [ reflexivity | now apply quiet_keep ] | ].
  destruct (N.ltb_spec (q_cap q - lenN (q_buf q)) (lenN bs)).
  - destruct (quiet_flush q s H) as (q1 & -> & B & C & _ & _ & HQ1). destruct (q_cap q <=? lenN bs); [ now apply quiet_direct | eexists; split; [ reflexivity | now apply quiet_keep ] ].
  - destruct (N.leb_spec (q_cap q) (lenN bs)); [ | eexists; split; [ reflexivity | now apply quiet_keep ] ].
    destruct (N.eq_dec (lenN (q_buf q)) 0) as [ E | E ].
    + apply quiet_direct; auto. destruct (q_buf q); [ auto | rewrite lenN_cons in E; lia ].
    + assert (Eb : bs = []) by (destruct bs; [ auto | rewrite lenN_cons in *; lia ]). subst bs. cbn [shaky_write]. eexists. split; [ reflexivity | ]. destruct H as (HN & H). rewrite put_same by auto.
      split; [ auto | exact H ].
Qed.
Lemma quiet_pieces lens : forall bs q s, quiet q s -> exists q', buf_pieces lens bs q = (Ok tt, q') /\ quiet q' (put s bs None).
Proof.
  induction lens as [ | n lens IH ]; intros bs q s H; cbn [buf_pieces]; [ now apply quiet_write_all | ].
  destruct (quiet_write_all (takeN n bs) q s H) as (q1 & -> & H1). destruct (IH (dropN n bs) q1 _ H1) as (q2 & -> & H2). rewrite put_put, takeN_dropN in H2. eauto.
Qed.
Lemma quiet_run A (p : wprog A) : forall q s, quiet q s -> fst (run_spilling p q) = fst (run_sink p s) /\ quiet (snd (run_spilling p q)) (snd (run_sink p s)).
Proof.
  assert (T : forall B (f : sink -> res B * sink) (a : sink -> B) g q s, (forall z, sk_fuel z = None -> f z = (Ok (a z), g z) /\ sk_fuel (g z) = None) -> quiet q s ->
    exists q', buf_then f q = (Ok (a s), q') /\ quiet q' (g s)).
  { intros B f a g q s Hf H. unfold buf_then. pose proof (proj1 H) as HN. destruct (quiet_flush q s H) as (q1 & -> & B1 & C1 & O1 & P1 & _). unfold shaky_call. rewrite O1. destruct (Hf s HN) as (E & HN2).
    destruct (y_plan (q_out q1)) as [ | [ j | ] pl ]; inversion P1; subst; try discriminate; cbn [tl]; rewrite E; eexists; (split; [ reflexivity | ]); (split; [ auto | ]);
      (split; [ auto | ]); (split; [ auto | ]); cbn [with_state q_buf q_out y_out]; rewrite B1, put_same; auto. }
  induction p as [ r | bs k IH | k IH | n k IH | k IH ]; intros q s H; cbn [run_spilling run_sink].
  - auto.
  - unfold buf_write. set (q0 := {| q_out := _ |}). assert (H0 : quiet q0 s) by exact H. destruct (quiet_pieces (q_cuts q (q_calls q)) bs q0 s H0) as (q' & -> & H'). rewrite sink_write_none by apply H. auto.
  - destruct (T _ sink_tell sk_pos (fun z => z) q s) as (q' & -> & H'); auto. { intros z Hz. split; auto. now apply tell_still. } rewrite tell_still by apply H. auto.
  - destruct (T _ (sink_seek n) (fun _ => tt) (fun z => {| sk_data := sk_data z; sk_pos := n; sk_fuel := None |}) q s) as (q' & -> & H'); auto. { intros z Hz. split; auto. now apply seek_moves. }
    rewrite seek_moves by apply H. auto.
  - destruct (T _ sink_flush (fun _ => tt) (fun z => z) q s) as (q' & -> & H'); auto. { intros z Hz. split; auto. now apply flush_still. } rewrite flush_still by apply H. auto.
Qed.
Lemma spill_untroubled cap cuts c t d o h k vs e s plan : sk_fuel s = None -> Forall (eq None) plan -> spilling_session cap cuts c t d o h k vs e {| y_out := s; y_plan := plan |} = session c t d o h k vs e s.
Proof.
  intros HN HP. unfold spilling_session. set (q0 := buf_new cap cuts {| y_out := s; y_plan := plan |}).
  destruct (session_sim (@run_spilling) (@run_sink) quiet quiet_run c t d o h k vs e q0 s) as (E & H); [ split; [ auto | ]; split; [ auto | ]; split; [ auto | ]; symmetry; now apply put_same | ].
  rewrite <- session_same. destruct (session_on (@run_spilling) c t d o h k vs e q0) as (r, q), (session_on (@run_sink) c t d o h k vs e s) as (r', s'). cbn [fst snd] in *. subst r'. f_equal.
  unfold buf_drop. destruct (quiet_flush q s' H) as (q' & -> & _ & _ & <- & _). reflexivity.
Qed.

(** * Items in one piece, smaller than the buffer *)
Definition like (q q' : spilling) : Prop := q_cap q' = q_cap q /\ q_cuts q' = q_cuts q.
Lemma like_flush q : like q (snd (flush_buf q)).
Proof. unfold flush_buf. destruct (shaky_write (q_buf q) (q_out q)) as (r, y). split; reflexivity. Qed.
Lemma like_trans q q1 q2 : like q q1 -> like q1 q2 -> like q q2.
Proof. intros (A & B) (C & D). split; congruence. Qed.
Lemma like_write_all bs q : like q (snd (buf_write_all bs q)).
Proof.
  unfold buf_write_all. destruct (_ <? _); [ split; reflexivity | ].
  assert (G : like q (snd (if q_cap q - lenN (q_buf q) <? lenN bs then flush_buf q else (Ok tt, q)))) by (destruct (_ <? _); [ apply like_flush | split; reflexivity ]).
  destruct (if q_cap q - lenN (q_buf q) <? lenN bs then flush_buf q else (Ok tt, q)) as ([ u | | ], q1); cbn [snd] in *; auto.
  destruct (q_cap q <=? lenN bs); [ destruct (shaky_write bs (q_out q1)) | ]; eapply like_trans; eauto; split; reflexivity.
Qed.
Lemma like_pieces lens : forall bs q, like q (snd (buf_pieces lens bs q)).
Proof.
  induction lens as [ | n lens IH ]; intros bs q; cbn [buf_pieces]; [ apply like_write_all | ]. pose proof (like_write_all (takeN n bs) q) as G.
  destruct (buf_write_all (takeN n bs) q) as ([ u | | ], q1); cbn [snd] in *; auto. eapply like_trans; eauto.
Qed.
Lemma like_write bs q : like q (snd (buf_write bs q)).
Proof. unfold buf_write. set (q0 := {| q_out := _ |}). apply (like_trans q q0); [ split; reflexivity | apply like_pieces ]. Qed.
Lemma like_then {A} (f : sink -> res A * sink) q : like q (snd (buf_then f q)).
Proof.
  unfold buf_then. pose proof (like_flush q) as G. destruct (flush_buf q) as ([ u | | ], q1); cbn [snd] in *; auto. destruct (shaky_call f (q_out q1)). eapply like_trans; eauto. split; reflexivity.
Qed.
Lemma like_run A (p : wprog A) : forall q, like q (snd (run_spilling p q)).
Proof.
  induction p as [ r | bs k IH | k IH | n k IH | k IH ]; intros q; cbn [run_spilling].
  - split; reflexivity.
  - pose proof (like_write bs q) as G. destruct (buf_write bs q) as ([ u | | ], q1); cbn [snd] in *; auto. eapply like_trans; eauto.
  - pose proof (like_then sink_tell q) as G. destruct (buf_then sink_tell q) as ([ u | | ], q1); cbn [snd] in *; auto. eapply like_trans; eauto.
  - pose proof (like_then (sink_seek n) q) as G. destruct (buf_then (sink_seek n) q) as ([ u | | ], q1); cbn [snd] in *; auto. eapply like_trans; eauto.
  - pose proof (like_then sink_flush q) as G. destruct (buf_then sink_flush q) as ([ u | | ], q1); cbn [snd] in *; auto. eapply like_trans; eauto.
Qed.
Lemma pushes_clean c t d vs base m : wf_dtype d -> strings_fit (c_usize_max c) d -> accepts m Writing t d -> Forall (has_type t) vs -> (forall v, In v vs -> exists b, encode t d v = Some b) ->
  forall w W q, writer c t d = DOk (w_writer w) -> w_num_items w + lenN vs < 2 ^ 64 -> lag base W q -> size d < q_cap q -> (forall i, q_cuts q i = []) ->
  exists rs data q', push_each_on (@run_spilling) c vs w q = (rs, with_count w (w_num_items w + lenN vs), q') /\ lag base (W ++ data) q' /\ shaky_pushes t d vs rs data
  /\ encodings t d (stored vs rs) data.
Proof.
  intros Hw Hs Ha Hvs. induction Hvs as [ | v vs Hv Hvs IH ]; intros Hen w W q Hr Hn HL Hcap Hcuts.
  - exists [], [], q. cbn [push_each_on]. change (lenN (@nil val)) with 0. rewrite N.add_0_r, with_count_id, app_nil_r. split; [ auto | ]. split; [ auto | ]. split; [ constructor | apply encodings_nil ].
  - rewrite lenN_cons in *. cbn [push_each_on]. destruct (Hen v (or_introl eq_refl)) as (b & Eb). assert (E : write_one c (w_writer w) v = (b, Ok tt)) by now apply (write_exact c t d).
    rewrite (push_spilling c v w q b (Ok tt)) by (auto; lia). cbn [run_spilling]. pose proof (like_write b q) as (K1 & K2).
    destruct (write_lag base W b q HL) as (r & q1 & part & E1 & HL1 & _ & C). rewrite E1 in *. cbn [snd] in K1, K2.
    assert (Hlb : lenN b = size d) by now destruct (encode_len t _ _ _ _ Ha Hv Eb).
    destruct (IH (fun v' Hin => Hen v' (or_intror Hin)) (with_count w (w_num_items w + 1)) (W ++ part) q1 Hr) as (rs & data & q2 & E2 & HL2 & P & En);
      [ cbn [with_count w_num_items]; lia | auto | congruence | intros i; rewrite K2; apply Hcuts | ].
    destruct C as [ (-> & ->) | (-> & C & Cp) ].
    + cbn [run_spilling]. rewrite E2. exists (Ok tt :: rs), (b ++ data), q2. split; [ | split; [ now rewrite app_assoc | split; [ now constructor | cbn [stored]; now apply encodings_cons ] ] ]. f_equal. f_equal.
      cbn [with_count w_num_items]. transitivity (with_count w (w_num_items w + 1 + lenN vs)); [ reflexivity | f_equal; lia ].
    + assert (part = []) by (apply Cp; [ apply Hcuts | lia ]). subst part. rewrite E2. exists (Err ESink :: rs), data, q2. rewrite app_nil_r in HL2.
      split; [ | split; [ auto | split; [ apply (sp_stopped t d v b []); auto | exact En ] ] ]. f_equal. f_equal.
      cbn [with_count w_num_items]. transitivity (with_count w (w_num_items w + 1 + lenN vs)); [ reflexivity | f_equal; lia ].
Qed.
Lemma spill_clean cap cuts c t d o h vs e s plan rs r s' : wf_dtype d -> strings_fit (c_usize_max c) d -> top_level d -> Forall (has_type t) vs -> lenN vs < 2 ^ 64 ->
  hint_ok h -> short_header d h -> sk_fuel s = None -> sk_pos s <= lenN (sk_data s) ->
  (forall v, In v vs -> exists b, encode t d v = Some b) -> size d < cap -> (forall i, cuts i = []) ->
  spilling_session cap cuts c t d o h (output_kind h) vs e {| y_out := s; y_plan := plan |} = (Ok (rs, r), s') ->
  exists data file, encodings t d (stored vs rs) data /\ spilled_ends d o h (lenN vs) data e r file /\ placed (sk_data s) (sk_pos s) file (sk_data s').
Proof.
  intros Hw Hsf Ht Hvs Hn Hh Hs HN Hp Hen Hcap Hcuts. set (q0 := buf_new cap cuts {| y_out := s; y_plan := plan |}). assert (H0 : settled s q0) by (split; auto).
  destruct (begun_bytes c t d o h s Hw Ht Hh Hs HN) as (b & r0 & H & Eb & HB & Hne & C). unfold spilling_session, session_on. fold q0.
  pose proof (like_run _ (begin_p c t d o h (output_kind h)) q0) as (K1 & K2).
  destruct (begin_lag c t d o h (output_kind h) s q0 b r0 H0 Hne H) as (r' & q1 & part & E & HL & Hc). rewrite E in *. cbn [snd] in K1, K2. destruct Hc as [ (-> & ->) | (-> & Hc) ]; [ | discriminate ].
  destruct C as [ (w & -> & Hwr & Hz & A) | (msg & -> & M) ]; [ | discriminate ].
  destruct (pushes_clean c t d vs s _ Hw Hsf A Hvs Hen w b q1 Hwr) as (rs' & data & q2 & E2 & HL2 & HP & En); [ rewrite Hz; lia | auto | rewrite K1; exact Hcap | intros i; rewrite K2; apply Hcuts | ].
  rewrite E2, Hz, N.add_0_l. destruct (ends_lag c t d o h s w b (lenN vs) data e q2 Hw Hh Hn HN Hp Hne Eb HL2) as (r1 & q3 & file & E3 & H1 & H2).
  rewrite E3. intros X. apply pair_inj in X as (X & <-). apply Ok_inj, pair_inj in X as (<- & <-). exists data, file. auto.
Qed.
