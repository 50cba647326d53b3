(** Histories of pushes, with errors. *)
From Verif Require Import M_Base M_Text M_TypeStr M_PyLit M_IO M_Header M_Read M_Serialize M_NpyReader M_Write.
From Verif Require Import S_TypeStr S_DType S_Shape S_Header S_Elem S_Strings S_Reader S_Write
  P_Base P_Text P_TypeStr P_PyLit P_Header P_IO P_Sink P_Shape P_WriteHeader P_Number P_Elem P_ReadOne P_WriteOne P_Codec P_Sizes P_Strings P_Parse P_ElemT P_Reader P_Array P_Writer P_WriteFile.
Open Scope N_scope.

Lemma sink_write_any bs s r s' : sink_write bs s = (r, s') ->
  exists bs', s' = put s bs' (sk_fuel s') /\ (sk_fuel s = None -> sk_fuel s' = None /\ r = Ok tt /\ bs' = bs) /\ (r = Ok tt /\ bs' = bs \/ r = Err ESink).
Proof.
  destruct (sk_fuel s) as [ n | ] eqn:F.
  - rewrite (sink_write_some s bs n F). destruct (lenN bs <=? n); intros H; apply pair_inj in H as (<- & <-).
    + exists bs. split; [ reflexivity | split; [ discriminate | auto ] ].
    + exists (takeN n bs). split; [ reflexivity | split; [ discriminate | auto ] ].
  - rewrite (sink_write_none s bs F). intros H; apply pair_inj in H as (<- & <-). exists bs. split; [ reflexivity | split; auto ].
Qed.

Lemma push_any c v w s r w' s' : w_num_items w + 1 < 2 ^ 64 -> push c v w s = (r, w', s') ->
  w' = with_count w (w_num_items w + 1) /\ exists bs, s' = put s bs (sk_fuel s') /\ (sk_fuel s = None -> sk_fuel s' = None /\ r = snd (write_one c (w_writer w) v)
    /\ bs = fst (write_one c (w_writer w) v)) /\ (r = Panic -> snd (write_one c (w_writer w) v) = Panic).
Proof.
  intros Hn H. rewrite push_eq in H by auto. destruct (write_one c (w_writer w) v) as (bs, r1) eqn:Ew. unfold sbind in H.
  destruct (sink_write bs s) as (r2, s2) eqn:Es. destruct (sink_write_any _ _ _ _ Es) as (bs' & Hs & Hf & Hr). cbn [fst snd].
  destruct Hr as [ (-> & ->) | -> ]; unfold sret in H; apply pair_inj in H as (H & <-); apply pair_inj in H as (<- & <-); (split; [ reflexivity | ]).
  - exists bs. split; [ auto | ]. split; [ intros HN; destruct (Hf HN) as (? & _); auto | auto ].
  - exists bs'. split; [ auto | ]. split; [ intros HN; destruct (Hf HN) as (? & ? & _); discriminate | discriminate ].
Qed.

Lemma push_each_any c vs : forall w s rs w' s', w_num_items w + lenN vs < 2 ^ 64 -> push_each c vs w s = (rs, w', s') ->
  w' = with_count w (w_num_items w + lenN vs) /\ lenN rs = lenN vs /\ (exists bs, s' = put s bs (sk_fuel s')) /\ (sk_fuel s = None -> sk_fuel s' = None)
  /\ (In Panic rs -> exists v, In v vs /\ snd (write_one c (w_writer w) v) = Panic).
Proof.
  induction vs as [ | v vs IH ]; intros w s rs w' s' Hn H.
  - cbn [push_each] in H. apply pair_inj in H as (H & <-). apply pair_inj in H as (<- & <-). change (lenN (@nil val)) with 0. rewrite N.add_0_r, with_count_id.
    split; [ reflexivity | ]. split; [ reflexivity | ]. split; [ exists []; rewrite put_nil; now destruct s | ]. split; [ auto | intros [] ].
  - cbn [push_each] in H. rewrite lenN_cons in *. destruct (push c v w s) as ((r, w1), s1) eqn:Ep. destruct (push_each c vs w1 s1) as ((rs1, w2), s2) eqn:Ee.
    apply pair_inj in H as (H & <-). apply pair_inj in H as (<- & <-). apply push_any in Ep as (-> & bs & Hs1 & HN1 & HP1); [ | lia ].
    apply IH in Ee as (-> & Hl & (bs2 & Hs2) & HN2 & HP2); [ | cbn [with_count w_num_items]; lia ]. cbn [with_count w_num_items w_writer] in *. split.
    + transitivity (with_count w (w_num_items w + 1 + lenN vs)); [ reflexivity | f_equal; lia ].
    + split; [ rewrite lenN_cons, Hl; lia | ]. split; [ exists (bs ++ bs2); eapply put_trans; eauto | ]. split; [ intros HN; apply HN2, HN1, HN | ].
      intros [ -> | Hin ]; [ exists v; split; [ now left | auto ] | ]. destruct (HP2 Hin) as (x & Hx & Hx'). exists x. split; [ now right | auto ].
Qed.

(** A growing file stays one whatever is pushed. *)
Lemma put_growing d o h s0 n payload w s L pad props m bs f : growing_state d o h s0 n payload w s L pad props ->
  growing_state d o h s0 (n + m) (payload ++ bs) (with_count w (w_num_items w + m)) (put s bs f) L pad props.
Proof.
  intros [ G1 G2 G3 G4 G5 G6 G7 G8 G9 ]. constructor; cbn [with_count w_seekable w_start_pos w_shape_info w_num_items w_version_props]; auto.
  - now rewrite G4.
  - destruct bs as [ | b bs ].
    + rewrite put_nil, app_nil_r. exact G8.
    + rewrite put_nonempty by discriminate. rewrite G8, G9.
      set (H := L ++ suffix o h filler ++ repeatN 32 pad ++ [10] ++ payload). rewrite <- overwrite_app. unfold H. app_norm. reflexivity.
  - cbn [put sk_pos]. rewrite G9, !lenN_app. lia.
Qed.
Lemma push_each_growing c d o h s0 n payload w s L pad props vs rs w' s' : n + lenN vs < 2 ^ 64 ->
  growing_state d o h s0 n payload w s L pad props -> push_each c vs w s = (rs, w', s') ->
  exists more, growing_state d o h s0 (n + lenN vs) (payload ++ more) w' s' L pad props.
Proof.
  intros Hn G H. pose proof (gs_count _ _ _ _ _ _ _ _ _ _ _ G) as Hc. apply push_each_any in H as (-> & _ & (bs & ->) & _); [ | lia ].
  exists bs. now apply put_growing.
Qed.

(** * Finishing, for every history *)
Lemma finish_only_shape c t d o h vs s w s1 rs w' s2 r s3 : growing h -> lenN vs < 2 ^ 64 ->
  begin_ c t d o h true s = (Ok w, s1) -> push_each c vs w s1 = (rs, w', s2) -> finish w' s2 = (r, s3) ->
  (exists pre old new post, sk_data s2 = pre ++ old ++ post /\ sk_data s3 = pre ++ new ++ post /\ lenN old = lenN new
     /\ sk_pos s <= lenN pre /\ lenN (pre ++ old) <= sk_pos s1)
  /\ (sk_fuel s2 = None -> sk_pos s3 = sk_pos s2).
Proof.
  intros Hg Hn Hb Hp Hf. destruct (begin_growing c t d o h s w s1 Hg Hb) as (_ & _ & L & pad & props & Hs1).
  destruct (push_each_growing c d o h s 0 [] w s1 L pad props vs rs w' s2 ltac:(lia) Hs1 Hp) as (payload & Hs2). rewrite N.add_0_l in Hs2. cbn [app] in Hs2.
  pose proof (finish_state d o h s _ _ _ _ L pad props Hg Hn Hs2) as HF.
  set (A := takeN (sk_pos s) (sk_data s) ++ repeatN 0 (sk_pos s - lenN (sk_data s))).
  assert (HA : lenN A = sk_pos s) by (unfold A; rewrite lenN_app, lenN_takeN, lenN_repeatN; lia).
  assert (HO : forall x, overwrite (sk_data s) (sk_pos s) x = A ++ x ++ dropN (sk_pos s + lenN x) (sk_data s)) by (intros x; unfold overwrite, A; now rewrite <- app_assoc).
  assert (Hp1 : sk_pos s1 = sk_pos s + lenN (L ++ suffix o h filler ++ repeatN 32 pad ++ [10])).
  { rewrite (gs_pos _ _ _ _ _ _ _ _ _ _ _ Hs1). rewrite !lenN_app. change (lenN (@nil N)) with 0. lia. }
  set (old := suffix o h filler) in *.
  assert (G : forall new, lenN new = lenN old -> sk_data s3 = overwrite (sk_data s) (sk_pos s) (L ++ new ++ repeatN 32 pad ++ [10] ++ payload) ->
    exists pre old new post, sk_data s2 = pre ++ old ++ post /\ sk_data s3 = pre ++ new ++ post /\ lenN old = lenN new
     /\ sk_pos s <= lenN pre /\ lenN (pre ++ old) <= sk_pos s1).
  { intros new Hl Hd. exists (A ++ L), old, new, ((repeatN 32 pad ++ [10] ++ payload) ++ dropN (sk_pos s + lenN (L ++ old ++ repeatN 32 pad ++ [10] ++ payload)) (sk_data s)).
    split; [ rewrite (gs_data _ _ _ _ _ _ _ _ _ _ _ Hs2), HO; fold old; now rewrite <- !app_assoc | ].
    split; [ | split; [ auto | split; [ rewrite lenN_app; lia | rewrite Hp1, !lenN_app, HA; lia ] ] ].
    rewrite Hd, HO. replace (lenN (L ++ new ++ repeatN 32 pad ++ [10] ++ payload)) with (lenN (L ++ old ++ repeatN 32 pad ++ [10] ++ payload)) by (rewrite !lenN_app; lia). now rewrite <- !app_assoc. }
  destruct (final_shape h o (lenN vs)) as [ shape | ].
  - destruct HF as (_ & Hax & HF). destruct (HF _ _ Hf) as (_ & [ (-> & Hd & Hp') | (-> & (m & Hm) & _ & k & Hk & Hd) ]).
    + split; [ | intros HN; now destruct (Hp' HN) ]. eapply G; [ | exact Hd ]. unfold old. rewrite !suffix_len; auto; [ apply filler_ok | apply dec_length_u64; lia ].
    + split; [ | congruence ].
      assert (Hlen : lenN (suffix o h (dec (variable_axis h (lenN vs)))) = lenN old) by (unfold old; rewrite !suffix_len; auto; [ apply filler_ok | apply dec_length_u64; lia ]).
      set (new := suffix o h (dec (variable_axis h (lenN vs)))) in *. clearbody new. apply (G (takeN k new ++ dropN k old)).
      * rewrite lenN_app, lenN_takeN, lenN_dropN. lia.
      * rewrite Hd. now rewrite <- !app_assoc.
  - destruct HF as (q & _ & _ & HF & _). rewrite HF in Hf. apply pair_inj in Hf as (_ & <-). split; [ | auto ]. apply (G old); [ auto | ].
    rewrite (gs_data _ _ _ _ _ _ _ _ _ _ _ Hs2). reflexivity.
Qed.

Lemma finish_twice c t d o h vs s w s1 rs w' s2 : lenN vs < 2 ^ 64 ->
  begin_ c t d o h (output_kind h) s = (Ok w, s1) -> push_each c vs w s1 = (rs, w', s2) ->
  fst (finish w' s2) = fst (finish_ w' s2) /\ sk_data (snd (finish w' s2)) = sk_data (snd (finish_ w' s2))
  /\ (sk_fuel s2 = None -> finish w' s2 = finish_ w' s2).
Proof.
  intros Hn Hb Hp. assert (Hg : growing h \/ exists shape, h = NDimensional shape) by (destruct h; cbn; eauto). destruct Hg as [ Hg | (shape & ->) ].
  - assert (Ek : output_kind h = true) by (destruct h; [ destruct Hg | | ]; reflexivity). rewrite Ek in Hb.
    destruct (begin_growing c t d o h s w s1 Hg Hb) as (_ & _ & L & pad & props & Hs1).
    destruct (push_each_growing c d o h s 0 [] w s1 L pad props vs rs w' s2 ltac:(lia) Hs1 Hp) as (payload & Hs2). rewrite N.add_0_l in Hs2. cbn [app] in Hs2.
    pose proof (finish_state d o h s _ _ _ _ L pad props Hg Hn Hs2) as HF. destruct (final_shape h o (lenN vs)) as [ shape | ].
    + destruct HF as (_ & _ & HF). destruct (finish w' s2) as (r, s3) eqn:Ef. destruct (HF _ _ eq_refl) as ((H1 & H2) & H3). cbn [fst snd].
      split; [ auto | split; [ auto | ] ]. intros HN. destruct H3 as [ (_ & _ & H3) | (_ & (m & Hm) & _) ]; [ | congruence ]. destruct (H3 HN) as (_ & _ & E). auto.
    + destruct HF as (q & _ & -> & -> & _). auto.
  - apply begin_fixed in Hb as (_ & _ & hdr & (c1 & _ & e & Fe) & Hc & _). apply push_each_any in Hp as (-> & _ & _ & _); [ | lia ].
    unfold finish, drop_writer, finish_. cbn [with_count w_shape_info w_num_items]. rewrite Fe. destruct (negb _); [ cbn; auto | ].
    unfold sink_flush. destruct (sink_tick s2) as (r1, s3) eqn:E1. pose proof (tick_ok _ _ _ E1) as (Hs3 & H1). destruct (sink_tick s3) as (r2, s4) eqn:E2. pose proof (tick_ok _ _ _ E2) as (Hs4 & H2).
    assert (HN : sk_fuel s2 = None -> s4 = s3).
    { intros HN. rewrite (tick_none _ HN) in E1. apply pair_inj in E1 as (_ & <-). rewrite (tick_none _ HN) in E2. apply pair_inj in E2 as (_ & <-). auto. }
    assert (Hd : sk_data s4 = sk_data s3) by (rewrite Hs4; reflexivity).
    destruct H1 as [ (-> & _) | (-> & _) ]; destruct H2 as [ (-> & _) | (-> & _) ]; cbn [fst snd]; (split; [ auto | split; [ auto | intros H; now rewrite (HN H) ] ]).
Qed.

(** * Fixed shapes: the item count *)
Lemma product_any c shape e : product c shape = Ok e -> e = count shape mod 2 ^ 64 /\ (c_ovf_panics c = true -> e = count shape).
Proof.
  unfold product. intros H. destruct (c_ovf_panics c) eqn:Ec.
  - assert (Hf : fits 1 shape \/ ~ fits 1 shape).
    { generalize 1. clear. induction shape as [ | x l IH ]; intros a; cbn [fits]; [ tauto | ]. destruct (IH (a * x)); [ | tauto ]. destruct (N.lt_ge_cases (a * x) (2 ^ 64)) as [ Hl | Hl ]; [ tauto | right; intros (Hx & _); apply N.lt_nge in Hx; tauto ]. }
    destruct Hf as [ Hf | Hf ]; [ | rewrite product_from_panic in H by auto; discriminate ]. pose proof (product_from_lt) as Hlt. rewrite product_from_fits in H by auto.
    apply Ok_inj in H. rewrite N.mul_1_l in H. split; [ | auto ]. rewrite H. symmetry. apply N.mod_small. rewrite <- H.
    apply (Hlt c shape 1); [ reflexivity | ]. rewrite product_from_fits by auto. now rewrite N.mul_1_l, H.
  - rewrite product_from_wrap in H by (auto; reflexivity). apply Ok_inj in H. rewrite N.mul_1_l in H. split; [ auto | discriminate ].
Qed.
Lemma fixed_count c t d o shape vs s w s1 rs w' s2 : lenN vs < 2 ^ 64 ->
  begin_nd c t d o shape s = (Ok w, s1) -> push_each c vs w s1 = (rs, w', s2) ->
  (fst (finish w' s2) = Err (EData (lit "shape has " ++ dec (count shape mod 2 ^ 64) ++ lit " item(s), but " ++ dec (lenN vs) ++ lit " item(s) were written!")) <-> count shape mod 2 ^ 64 <> lenN vs)
  /\ (c_ovf_panics c = true -> count shape = count shape mod 2 ^ 64)
  /\ (sk_fuel s = None -> fst (finish w' s2) = Ok tt <-> count shape mod 2 ^ 64 = lenN vs).
Proof.
  intros Hn Hb Hp. unfold begin_nd in Hb. assert (Hfu : sk_fuel s = None -> sk_fuel s1 = None).
  { intros HN. unfold begin_, sbind, sret in Hb. destruct (write_header c d o _ s) as ([ (info, props) | | ], s0) eqn:Ew; try discriminate.
    apply write_header_ok_inv in Ew as (_ & dict & pad & hdr & _ & _ & _ & Hw). rewrite (sink_write_none s hdr HN) in Hw. apply pair_inj in Hw as (_ & <-).
    destruct (writer c t d); [ | discriminate ]. apply pair_inj in Hb as (_ & <-). reflexivity. }
  pose proof Hb as Hb'. apply begin_ok_inv in Hb' as (_ & dict & pad0 & hdr0 & props0 & info & tw & Hc & _ & _ & _ & _ & Ew).
  cbn [create_dict] in Hc. apply bind_ok in Hc as (e & He & Hc). apply Ok_inj, pair_inj in Hc as (_ & <-).
  apply push_each_any in Hp as (Hw' & _ & _ & HN & _); [ | rewrite Ew; cbn; lia ].
  assert (Hi : w_shape_info w' = Known e) by (rewrite Hw', Ew; reflexivity). assert (Hk : w_num_items w' = lenN vs) by (rewrite Hw', Ew; reflexivity).
  destruct (finish w' s2) as (r, s3) eqn:Ef. apply (known_finish _ e _ _ _ Hi) in Ef as (_ & _ & Ef). rewrite Hk in Ef. cbn [fst].
  destruct (product_any c shape e He) as (E1 & E2). rewrite <- E1. split; [ | split ].
  - destruct (N.eqb_spec e (lenN vs)); [ destruct Ef as [ -> | (-> & _) ]; split; intros; [ discriminate | congruence | discriminate | congruence ] | rewrite Ef; tauto ].
  - intros Hov. now rewrite (E2 Hov).
  - intros HN'. destruct (N.eqb_spec e (lenN vs)).
    + destruct Ef as [ -> | (_ & Hx) ]; [ tauto | ]. elim Hx. auto.
    + rewrite Ef. split; [ discriminate | tauto ].
Qed.

(** * Sequential output *)
Lemma advanced_put D P bs f f' : advanced D P bs f' = put {| sk_data := D; sk_pos := P; sk_fuel := f |} bs f'.
Proof. reflexivity. Qed.
Lemma advanced_nil D P f : advanced D P [] f = {| sk_data := D; sk_pos := P; sk_fuel := f |}.
Proof. unfold advanced. change (lenN (@nil N)) with 0. now rewrite N.add_0_r. Qed.
Lemma seq_compose {A B} (p : sink -> A * sink) (k : A -> sink -> B * sink) : sequential p -> (forall a, sequential (k a)) ->
  sequential (fun s => let '(a, s') := p s in k a s').
Proof.
  intros Hp Hk fuel. destruct (Hp fuel) as (a & bs & f1 & H1). destruct (Hk a f1) as (b & bs2 & f2 & H2). exists b, (bs ++ bs2), f2. intros D P. rewrite H1.
  rewrite (advanced_put D P (bs ++ bs2) f1), <- (put_put _ bs bs2 f1 f2). exact (H2 (sk_data (advanced D P bs f1)) (P + lenN bs)).
Qed.
Lemma seq_ret {A} (a : A) : sequential (fun s => (a, s)).
Proof. intros f. exists a, [], f. intros D P. now rewrite advanced_nil. Qed.
Lemma seq_ext {A} (p q : sink -> A * sink) : (forall s, p s = q s) -> sequential q -> sequential p.
Proof. intros H Hq f. destruct (Hq f) as (a & bs & f' & E). exists a, bs, f'. intros D P. now rewrite H. Qed.
Lemma seq_bind {A B} (p : sink -> res A * sink) (k : A -> sink -> res B * sink) : sequential p -> (forall a, sequential (k a)) -> sequential (sbind p k).
Proof.
  intros Hp Hk. apply (seq_ext _ (fun s => let '(a, s') := p s in (match a with Ok x => k x | Err e => sret (Err e) | Panic => sret Panic end) s')).
  - intros s. unfold sbind. destruct (p s) as ([ a | e | ], s'); reflexivity.
  - apply seq_compose; auto. intros [ x | e | ]; [ apply Hk | apply seq_ret | apply seq_ret ].
Qed.
Lemma seq_write bs : sequential (sink_write bs).
Proof.
  intros [ n | ].
  - destruct (N.leb_spec (lenN bs) n).
    + exists (Ok tt), bs, (Some (n - lenN bs)). intros D P. unfold sink_write; cbn [sk_fuel sk_data sk_pos]. replace (lenN bs <=? n) with true by lia. reflexivity.
    + exists (Err ESink), (takeN n bs), (Some 0). intros D P. unfold sink_write; cbn [sk_fuel sk_data sk_pos]. replace (lenN bs <=? n) with false by lia. reflexivity.
  - exists (Ok tt), bs, None. intros D P. now rewrite sink_write_none.
Qed.
Lemma seq_tick : sequential sink_tick.
Proof.
  intros [ n | ].
  - destruct (N.eqb_spec n 0) as [ -> | Hn ].
    + exists (Err ESink), [], (Some 0). intros D P. rewrite advanced_nil. reflexivity.
    + exists (Ok tt), [], (Some (n - 1)). intros D P. rewrite advanced_nil. unfold sink_tick. cbn [sk_fuel sk_data sk_pos]. replace (n =? 0) with false by lia. reflexivity.
  - exists (Ok tt), [], None. intros D P. now rewrite advanced_nil.
Qed.
Lemma seq_write_header c d o h : sequential (write_header c d o h).
Proof.
  destruct d; try apply seq_ret; unfold write_header.
  all: apply seq_bind; [ apply seq_ret | ]; intros di; apply seq_bind; [ apply seq_ret | ]; intros ((txt, version), props).
  all: repeat (apply seq_bind; [ apply seq_write | ]; intros _).
  all: destruct (negb _); [ apply seq_ret | ]; apply seq_bind; [ destruct (vp_u32 props); destruct (_ <=? _); try apply seq_write; apply seq_ret | ]; intros _.
  all: apply seq_bind; [ apply seq_write | ]; intros _; apply seq_ret.
Qed.
Lemma seq_begin c t d o shape : sequential (begin_ c t d o (NDimensional shape) false).
Proof.
  unfold begin_. apply seq_bind; [ apply seq_ret | ]. intros p. apply seq_bind; [ apply seq_write_header | ]. intros ip. destruct (writer c t d); apply seq_ret.
Qed.
Lemma seq_push c v w : sequential (fun s => push c v w s).
Proof.
  unfold push. destruct (u64_add c (w_num_items w) 1); try apply seq_ret. destruct (write_one c (w_writer w) v) as (bs, r).
  apply (seq_compose (let@ _u := sink_write bs in sret r) (fun r' s' => (r', _, s'))).
  - apply seq_bind; [ apply seq_write | intros; apply seq_ret ].
  - intros a1. apply seq_ret.
Qed.
Lemma push_info c v w s r w' s' : push c v w s = (r, w', s') -> w_shape_info w' = w_shape_info w.
Proof.
  unfold push. destruct (u64_add c (w_num_items w) 1).
  - destruct (write_one c (w_writer w) v) as (bs, r1). destruct (sbind _ _ s). intros H. apply pair_inj in H as (H & _). apply pair_inj in H as (_ & <-). reflexivity.
  - intros H. apply pair_inj in H as (H & _). apply pair_inj in H as (_ & <-). reflexivity.
  - intros H. apply pair_inj in H as (H & _). apply pair_inj in H as (_ & <-). reflexivity.
Qed.
Lemma seq_push_each c vs : forall w, sequential (fun s => push_each c vs w s).
Proof.
  induction vs as [ | v vs IH ]; intros w; [ apply seq_ret | ].
  apply (seq_ext _ (fun s => let '(rw, s') := push c v w s in (fun rw s' => let '(q, s'') := push_each c vs (snd rw) s' in (fst rw :: fst q, snd q, s'')) rw s')).
  - intros s. cbn [push_each]. destruct (push c v w s) as ((r, w'), s'). cbn [fst snd]. destruct (push_each c vs w' s') as ((rs, w''), s''). reflexivity.
  - apply seq_compose; [ apply seq_push | ]. intros (r, w'). cbn [fst snd]. apply (seq_compose (fun s => push_each c vs w' s)); [ apply IH | ]. intros q. apply seq_ret.
Qed.
Lemma push_each_info c vs : forall w s rs w' s', push_each c vs w s = (rs, w', s') -> w_shape_info w' = w_shape_info w.
Proof.
  induction vs as [ | v vs IH ]; intros w s rs w' s' H; cbn [push_each] in H.
  - apply pair_inj in H as (H & _). apply pair_inj in H as (_ & <-). reflexivity.
  - destruct (push c v w s) as ((r, w1), s1) eqn:Ep. destruct (push_each c vs w1 s1) as ((rs1, w2), s2) eqn:Ee.
    apply pair_inj in H as (H & _). apply pair_inj in H as (_ & <-). apply push_info in Ep. apply IH in Ee. congruence.
Qed.
Lemma seq_finish_ w e : w_shape_info w = Known e -> sequential (finish_ w).
Proof. intros H. unfold finish_. rewrite H. destruct (negb _); [ apply seq_ret | apply seq_tick ]. Qed.
Lemma seq_drop w e : w_shape_info w = Known e -> sequential (drop_writer w).
Proof.
  intros H. apply (seq_ext _ (fun s => let '(a, s') := finish_ w s in (match a with Panic => sret Panic | _ => sret (Ok tt) end) s')).
  - intros s. unfold drop_writer. destruct (finish_ w s) as ([ | | ], s'); reflexivity.
  - apply seq_compose; [ eapply seq_finish_; eauto | ]. intros [ | | ]; apply seq_ret.
Qed.
Lemma seq_finish w e : w_shape_info w = Known e -> sequential (finish w).
Proof.
  intros H. apply (seq_ext _ (fun s => let '(a, s') := finish_ w s in (fun a s' => let '(b, s'') := drop_writer w s' in (match a, b with Panic, _ => Panic | _, Panic => Panic | _, _ => a end, s'')) a s')).
  - intros s. unfold finish. destruct (finish_ w s) as ([ | | ], s'); destruct (drop_writer w s') as ([ | | ], s''); reflexivity.
  - apply seq_compose; [ eapply seq_finish_; eauto | ]. intros a. apply (seq_compose (drop_writer w)); [ eapply seq_drop; eauto | ]. intros b. apply seq_ret.
Qed.
Lemma session_sequential c t d o shape vs e : sequential (session c t d o (NDimensional shape) false vs e).
Proof.
  intros fuel. destruct (seq_begin c t d o shape fuel) as (rw & bs & f1 & H1).
  destruct rw as [ w | er | ].
  - assert (Hi : exists n, w_shape_info w = Known n).
    { specialize (H1 [] 0). apply begin_fixed in H1 as (_ & _ & hdr & (c1 & _ & n & Hn) & _). eauto. }
    destruct Hi as (n & Hi).
    assert (Hq : sequential (fun s => let '(q, s2) := push_each c vs w s in
      (fun q s2 => let '(r, s3) := ended e (with_count w (w_num_items (snd q))) s2 in (Ok (fst q, r) : res (list (res unit) * res unit), s3)) q s2)).
    { apply seq_compose; [ apply seq_push_each | ]. intros q. apply (seq_compose (ended e (with_count w (w_num_items (snd q))))); [ | intros; apply seq_ret ].
      destruct e; [ eapply seq_finish | eapply seq_drop ]; exact Hi. }
    destruct (Hq f1) as (r & bs2 & f2 & H2). exists r, (bs ++ bs2), f2. intros D P. unfold session. rewrite H1.
    assert (Hw : forall vs w s, snd (fst (push_each c vs w s)) = with_count w (w_num_items (snd (fst (push_each c vs w s))))).
    { clear. induction vs as [ | v vs IH ]; intros w s; [ cbn; now rewrite with_count_id | ]. cbn [push_each]. destruct (push c v w s) as ((r, w1), s1) eqn:Ep.
      specialize (IH w1 s1). destruct (push_each c vs w1 s1) as ((rs, w2), s2). cbn [fst snd] in *. rewrite IH. cbn [with_count w_num_items].
      unfold push in Ep. destruct (u64_add c (w_num_items w) 1).
      - destruct (write_one c (w_writer w) v) as (bs, r1). destruct (sbind _ _ s). apply pair_inj in Ep as (H & _). apply pair_inj in H as (_ & <-). reflexivity.
      - apply pair_inj in Ep as (H & _). apply pair_inj in H as (_ & <-). reflexivity.
      - apply pair_inj in Ep as (H & _). apply pair_inj in H as (_ & <-). reflexivity. }
    rewrite (advanced_put D P (bs ++ bs2) f1), <- (put_put _ bs bs2 f1 f2). specialize (H2 (sk_data (advanced D P bs f1)) (P + lenN bs)).
    specialize (Hw vs w (advanced D P bs f1)). change {| sk_data := sk_data (advanced D P bs f1); sk_pos := P + lenN bs; sk_fuel := f1 |} with (advanced D P bs f1) in H2.
    destruct (push_each c vs w (advanced D P bs f1)) as ((rs, w'), s2). cbn [fst snd] in *. rewrite <- Hw in H2.
    destruct (ended e w' s2) as (r', s3). exact H2.
  - exists (Err er), bs, f1. intros D P. unfold session. now rewrite H1.
  - exists Panic, bs, f1. intros D P. unfold session. now rewrite H1.
Qed.
Lemma fixed_no_panic c t d o shape vs e s w s1 : wf_dtype d -> strings_fit (c_usize_max c) d -> Forall (has_type t) vs -> lenN vs < 2 ^ 64 ->
  begin_nd c t d o shape s = (Ok w, s1) ->
  exists rs r s', session c t d o (NDimensional shape) false vs e s = (Ok (rs, r), s') /\ ~ In Panic rs /\ r <> Panic.
Proof.
  intros Hwf Hsf Hvs Hn Hb. unfold begin_nd in Hb. unfold session. rewrite Hb. apply begin_fixed in Hb as (_ & Hw & hdr & (c1 & _ & n & Fe) & Hc & _).
  destruct (push_each c vs w s1) as ((rs, w'), s2) eqn:Ep. destruct (ended e w' s2) as (r, s3) eqn:Ee. exists rs, r, s3. split; [ reflexivity | ].
  pose proof (push_each_info _ _ _ _ _ _ _ Ep) as Hi. rewrite Fe in Hi.
  apply push_each_any in Ep as (_ & _ & _ & _ & HP); [ | lia ]. split.
  - intros Hin. destruct (HP Hin) as (v & Hv & Hp). rewrite Forall_forall in Hvs. now apply (no_panic_write c t d (w_writer w) v) in Hp; auto.
  - assert (Hf : forall s, fst (finish_ w' s) <> Panic).
    { intros q. unfold finish_. rewrite Hi. destruct (negb _); [ discriminate | ]. unfold sink_flush, sink_tick. destruct (sk_fuel q) as [ m | ]; [ destruct (m =? 0) | ]; discriminate. }
    assert (Hd : forall s, fst (drop_writer w' s) <> Panic).
    { intros q. unfold drop_writer. specialize (Hf q). destruct (finish_ w' q) as ([ | | ], ?); cbn in *; congruence. }
    destruct e; cbn [ended] in Ee.
    + unfold finish in Ee. specialize (Hf s2). destruct (finish_ w' s2) as (r1, s4). cbn [fst] in Hf. specialize (Hd s4). destruct (drop_writer w' s4) as (r2, s5). cbn [fst] in Hd.
      destruct r1; try congruence; destruct r2; try congruence; apply pair_inj in Ee as (<- & _); discriminate.
    + specialize (Hd s2). rewrite Ee in Hd. exact Hd.
Qed.
Lemma header_only_sequential c d o shape : sequential (write_header_only c d o shape).
Proof. unfold write_header_only. apply seq_bind; [ apply seq_write_header | intros; apply seq_ret ]. Qed.

(** * The builder *)
Lemma order_set {W} (b : builder W) o : get_order (set_order b o) = o.
Proof. induction b; auto. Qed.
Lemma dtype_set {W} (b : builder W) o : get_dtype (set_order b o) = get_dtype b.
Proof. induction b; auto. Qed.
Lemma shape_set {W} (b : builder W) o : get_shape (set_order b o) = get_shape b.
Proof. induction b; auto. Qed.
Lemma writer_set {W} (b : builder W) o : get_writer (set_order b o) = get_writer b.
Proof. induction b; auto. Qed.
Lemma builder_fold {W} (ks : list (option_call W)) : forall b,
  get_dtype (fold_left configure ks b) = match last_some as_dtype ks with Some x => Some x | None => get_dtype b end
  /\ get_shape (fold_left configure ks b) = match last_some as_shape ks with Some x => Some x | None => get_shape b end
  /\ get_writer (fold_left configure ks b) = match last_some as_writer ks with Some x => Some x | None => get_writer b end
  /\ get_order (fold_left configure ks b) = match last_some as_order ks with Some x => x | None => get_order b end.
Proof.
  induction ks as [ | k ks IH ]; intros b; [ cbn; auto | ]. cbn [fold_left last_some]. destruct (IH (configure b k)) as (-> & -> & -> & ->).
  destruct k; cbn [configure as_dtype as_shape as_writer as_order get_dtype get_shape get_writer get_order];
    rewrite ?dtype_set, ?shape_set, ?writer_set, ?order_set; repeat split; destruct (last_some as_dtype ks), (last_some as_shape ks), (last_some as_writer ks), (last_some as_order ks); reflexivity.
Qed.
Lemma builder_last (ks : list (option_call sink)) :
  get_dtype (configured ks) = last_some as_dtype ks /\ get_shape (configured ks) = last_some as_shape ks
  /\ get_writer (configured ks) = last_some as_writer ks /\ get_order (configured ks) = the_order ks.
Proof.
  unfold configured. destruct (builder_fold ks write_options_new) as (-> & -> & -> & ->). unfold the_order.
  repeat split; destruct (last_some _ ks); reflexivity.
Qed.
Lemma builder_exact c t r (ks : list (option_call sink)) :
  build_nd c t (configured ks) = match last_some as_dtype ks, last_some as_shape ks, last_some as_writer ks with
                                 | Some d, Some shape, Some s => Some (begin_nd c t d (the_order ks) shape s) | _, _, _ => None end
  /\ build_1d c t (configured ks) = match last_some as_dtype ks, last_some as_writer ks with
                                    | Some d, Some s => Some (begin_1d c t d (the_order ks) s) | _, _ => None end
  /\ build_2d c t r (configured ks) = match last_some as_dtype ks, last_some as_writer ks with
                                      | Some d, Some s => Some (begin_2d c t d (the_order ks) r s) | _, _ => None end
  /\ build_header_only c (configured ks) = match last_some as_dtype ks, last_some as_shape ks, last_some as_writer ks with
                                           | Some d, Some shape, Some s => Some (write_header_only c d (the_order ks) shape s) | _, _, _ => None end.
Proof.
  destruct (builder_last ks) as (H1 & H2 & H3 & H4). unfold build_nd, build_1d, build_2d, build_header_only. rewrite H1, H2, H3, H4. auto.
Qed.
Lemma builder_same c t r (ks ks' : list (option_call sink)) :
  last_some as_dtype ks = last_some as_dtype ks' -> last_some as_shape ks = last_some as_shape ks' -> last_some as_writer ks = last_some as_writer ks' -> last_some as_order ks = last_some as_order ks' ->
  build_nd c t (configured ks) = build_nd c t (configured ks') /\ build_1d c t (configured ks) = build_1d c t (configured ks')
  /\ build_2d c t r (configured ks) = build_2d c t r (configured ks') /\ build_header_only c (configured ks) = build_header_only c (configured ks').
Proof.
  intros H1 H2 H3 H4. destruct (builder_exact c t r ks) as (-> & -> & -> & ->). destruct (builder_exact c t r ks') as (-> & -> & -> & ->).
  unfold the_order. rewrite H1, H2, H3, H4. auto.
Qed.
