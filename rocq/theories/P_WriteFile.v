(** Whole files: fixed and growing shapes. *)
From Verif Require Import M_Base M_Text M_TypeStr M_PyLit M_IO M_Header M_Read M_Serialize M_NpyReader M_Write.
From Verif Require Import S_TypeStr S_DType S_Shape S_Header S_Elem S_Strings S_Reader S_Write
  P_Base P_Text P_TypeStr P_PyLit P_Header P_IO P_Sink P_Shape P_WriteHeader P_Number P_Elem P_ReadOne P_WriteOne P_Codec P_Sizes P_Strings P_Parse P_ElemT P_Reader P_Array P_Writer.
Open Scope N_scope.

(** * Fixed shapes *)
Definition fixed_state (d : dtype) (o : order) (shape : list N) (s0 : sink) (n : N) (payload : bytes) (w : npy_writer) (s : sink) (hdr : bytes) : Prop :=
  (exists c, product c shape = Ok (match w_shape_info w with Known e => e | _ => 0 end) /\ exists e, w_shape_info w = Known e)
  /\ w_num_items w = n /\ hdr <> [] /\ (exists props pad, header_of (utf8 (header_dict d o shape)) hdr props pad) /\ s = put s0 (hdr ++ payload) (sk_fuel s).

Lemma header_nonempty dict hdr props pad : header_of dict hdr props pad -> hdr <> [].
Proof. intros [ version -> _ _ _ _ _ _ ]. discriminate. Qed.

Lemma begin_fixed c t d o shape sk s w s1 : begin_ c t d o (NDimensional shape) sk s = (Ok w, s1) ->
  top_level d /\ writer c t d = DOk (w_writer w) /\ exists hdr, fixed_state d o shape s 0 [] w s1 hdr.
Proof.
  intros H. apply begin_ok_inv in H as (Ht & dict & pad & hdr & props & info & tw & Hc & Hh & _ & Hw & Hs & ->).
  split; [ auto | split; [ auto | ] ]. cbn [create_dict] in Hc. apply bind_ok in Hc as (n & Hn & Hc). apply Ok_inj, pair_inj in Hc as (Hd & Hi).
  subst info. exists hdr. unfold fixed_state. cbn [w_shape_info w_num_items]. split; [ exists c; split; [ exact Hn | eauto ] | ]. split; [ reflexivity | ].
  split; [ eapply header_nonempty; eauto | ]. split; [ exists props, pad; rewrite header_dict_bytes; now rewrite Hd | ]. now rewrite app_nil_r.
Qed.
Lemma extend_fixed c t d o shape s0 n payload w s hdr vs w' s' : wf_dtype d -> Forall (has_type t) vs ->
  writer c t d = DOk (w_writer w) -> n + lenN vs < 2 ^ 64 ->
  fixed_state d o shape s0 n payload w s hdr -> extend c vs w s = (Ok tt, w', s') ->
  exists more, encodings t d vs more /\ fixed_state d o shape s0 (n + lenN vs) (payload ++ more) w' s' hdr /\ writer c t d = DOk (w_writer w').
Proof.
  intros Hwf Hvs Hw Hn (F1 & F2 & F3 & F4 & F5) H. subst n.
  apply (extend_ok_inv c t d vs Hwf Hvs w s w' s' Hw Hn) in H as (more & He & Hs & ->).
  exists more. split; [ auto | split; [ | exact Hw ] ]. split; [ exact F1 | split; [ reflexivity | split; [ auto | split; [ auto | ] ] ] ].
  rewrite app_assoc. eapply put_trans; eauto.
Qed.

Lemma known_finish w e s r s' : w_shape_info w = Known e -> finish w s = (r, s') ->
  s' = put s [] (sk_fuel s') /\ (sk_fuel s = None -> s' = s) /\
  (if e =? w_num_items w then (r = Ok tt \/ (r = Err ESink /\ sk_fuel s <> None)) else r = Err (wrong_count e (w_num_items w))).
Proof.
  intros Hi H. unfold finish, drop_writer, finish_ in H. rewrite Hi in H. destruct (N.eqb_spec e (w_num_items w)); cbn [negb] in H.
  - unfold sink_flush in H. destruct (sink_tick s) as (r1, s1) eqn:E1. pose proof (tick_ok _ _ _ E1) as (Hs1 & H1).
    destruct (sink_tick s1) as (r2, s2) eqn:E2. pose proof (tick_ok _ _ _ E2) as (Hs2 & H2).
    assert (Hs : s2 = put s [] (sk_fuel s2)) by (rewrite <- (app_nil_l []); eapply put_trans; eauto).
    assert (HN : sk_fuel s = None -> r1 = Ok tt /\ s2 = s).
    { intros HN. rewrite (tick_none s HN) in E1. apply pair_inj in E1 as (<- & <-). rewrite (tick_none s HN) in E2. apply pair_inj in E2 as (_ & <-). auto. }
    assert (Hr2 : r2 <> Panic) by (destruct H2 as [ (-> & _) | (-> & _) ]; discriminate).
    destruct H1 as [ (-> & _) | (-> & Hz & _) ].
    + destruct r2 as [ [] | e2 | ]; try congruence; apply pair_inj in H as (<- & <-); (split; [ auto | split; [ now intros; apply HN | auto ] ]).
    + destruct r2 as [ [] | e2 | ]; try congruence; apply pair_inj in H as (<- & <-); (split; [ auto | split; [ now intros; apply HN | right; split; [ auto | congruence ] ] ]).
  - apply pair_inj in H as (<- & <-). rewrite put_nil. split; [ destruct s; auto | auto ].
Qed.

(** * What the finished file is *)
Lemma no_overflow_1 n : n < 2 ^ 64 -> no_overflow [n].
Proof.
  intros H k. destruct k as [ | [ | k ] ]; cbn [firstn skipn count fold_right]; rewrite ?firstn_nil, ?skipn_nil; cbn [count fold_right]; split; lia.
Qed.
Lemma no_overflow_2 a b : a < 2 ^ 64 -> b < 2 ^ 64 -> a * b < 2 ^ 64 -> no_overflow [a; b].
Proof.
  intros Ha Hb Hab k. destruct k as [ | [ | [ | k ] ] ]; cbn [firstn skipn count fold_right]; rewrite ?firstn_nil, ?skipn_nil; cbn [count fold_right]; split; lia.
Qed.

Lemma opens_with d o shape file payload : no_overflow shape ->
  (forall c rest, run (read_and_interpret c) (file ++ rest) = (from_parts c d shape o, payload ++ rest)) -> file_with d o shape file payload.
Proof.
  intros Hno H c rest Hn. rewrite H. destruct (from_parts_intro c d shape o Hno (or_intror Hn)) as (h & Hfp). rewrite Hfp. exists h. split; [ auto | ].
  pose proof (len_exact _ _ _ _ _ Hfp Hno). apply from_parts_ok in Hfp. tauto.
Qed.

Lemma shape_with_ok h o n shape : growing h -> hint_ok h -> n < 2 ^ 64 -> final_shape h o n = Some shape ->
  shape = shape_with o h (variable_axis h n) -> Forall (fun n => n < 2 ^ 64) shape /\ no_overflow shape /\ count shape = n.
Proof.
  intros Hg Hh Hn Hf ->. unfold final_shape in Hf. destruct h as [ sh | r | ]; [ destruct Hg | | ]; cbn [shape_with variable_axis hint_ok] in *.
  - destruct (N.eqb_spec r 0) as [ -> | Hr ]; [ discriminate | ]. cbn [orb] in Hf. destruct (N.eqb_spec (n mod r) 0) as [ E | ]; [ | discriminate ].
    assert (Hm : n = r * (n / r)) by (pose proof (N.div_mod n r Hr); lia). assert (Hq : n / r <= n) by (apply N.div_le_upper_bound; nia).
    set (q := n / r) in *. clearbody q. destruct o.
    + split; [ repeat constructor; lia | ]. split; [ apply no_overflow_2; lia | cbn; lia ].
    + split; [ repeat constructor; lia | ]. split; [ apply no_overflow_2; lia | cbn; lia ].
  - split; [ repeat constructor; lia | ]. split; [ now apply no_overflow_1 | cbn; lia ].
Qed.

(** * Writing a whole file *)
Lemma placed_put s x f : x <> [] -> placed (sk_data s) (sk_pos s) x (sk_data (put s x f)).
Proof. intros H. rewrite put_nonempty by auto. reflexivity. Qed.

Definition final_dict (d : dtype) (o : order) (h : shape_hint) (n : N) : bytes :=
  match h with NDimensional shape => utf8 (header_dict d o shape) | _ => dict_prefix d o ++ suffix o h (dec (variable_axis h n)) end.
Lemma write_file_full c t d o h vs s s' : wf_dtype d -> Forall (has_type t) vs -> lenN vs < 2 ^ 64 -> hint_ok h ->
  write_file c t d o h (output_kind h) vs s = (Ok tt, s') ->
  exists shape hdr payload, final_shape h o (lenN vs) = Some shape /\ encodings t d vs payload
  /\ placed (sk_data s) (sk_pos s) (hdr ++ payload) (sk_data s')
  /\ (sk_fuel s = None -> sk_pos s' = sk_pos s + lenN (hdr ++ payload) /\ sk_fuel s' = None)
  /\ file_with d o shape (hdr ++ payload) payload
  /\ top_level d /\ (growing h -> shape = shape_with o h (variable_axis h (lenN vs))) /\ exists props pad, header_of (final_dict d o h (lenN vs)) hdr props pad.
Proof.
  intros Hwf Hvs Hn Hh H. unfold write_file, sbind in H.
  destruct (begin_ c t d o h (output_kind h) s) as ([ w | e | ], s1) eqn:Eb; try discriminate.
  unfold push_all_and_finish in H. destruct (extend c vs w s1) as ((r, w'), s2) eqn:Ee.
  destruct r as [ [] | e | ]; [ | destruct (drop_writer w' s2) as ([ [] | | ], ?); discriminate | destruct (drop_writer w' s2) as ([ [] | | ], ?); discriminate ].
  assert (Hfu : sk_fuel s = None -> sk_fuel s2 = None).
  { intros HN. assert (H1 : sk_fuel s1 = None).
    { clear - Eb HN. unfold begin_ in Eb. unfold sbind in Eb at 1.
      assert (E : (if output_kind h then let@ p := sink_tell in sret (Ok (Some p)) else sret (Ok None)) s = (Ok (if output_kind h then Some (sk_pos s) else None), s)).
      { destruct (output_kind h); [ | reflexivity ]. unfold sbind, sink_tell. rewrite tick_none by auto. reflexivity. }
      rewrite E in Eb. unfold sbind in Eb. destruct (write_header c d o h s) as ([ (info, props) | | ], s0) eqn:Ew; try discriminate.
      apply write_header_ok_inv in Ew as (_ & dict & pad & hdr & _ & _ & _ & Hw). rewrite (sink_write_none s hdr HN) in Hw. apply pair_inj in Hw as (_ & <-).
      destruct (writer c t d); [ | discriminate ]. unfold sret in Eb. apply pair_inj in Eb as (_ & <-). reflexivity. }
    clear - Ee H1. revert w s1 H1 Ee. induction vs as [ | v vs IH ]; intros w s1 H1 Ee; cbn [extend] in Ee.
    - apply pair_inj in Ee as (_ & <-). auto.
    - unfold push in Ee. destruct (u64_add c (w_num_items w) 1) as [ n | | ]; try discriminate. destruct (write_one c (w_writer w) v) as (bs, r). unfold sbind in Ee.
      rewrite (sink_write_none s1 bs H1) in Ee. unfold sret in Ee. destruct r as [ [] | | ]; try discriminate. eapply IH; [ | exact Ee ]. reflexivity. }
  assert (Hg : growing h \/ exists shape, h = NDimensional shape) by (destruct h; cbn; eauto).
  destruct Hg as [ Hg | (shape & ->) ].
  - assert (Ek : output_kind h = true) by (destruct h; [ destruct Hg | | ]; reflexivity). rewrite Ek in Eb.
    destruct (begin_growing c t d o h s w s1 Hg Eb) as (Ht & Hw & L & pad & props & Hs1).
    destruct (extend_growing c t d o h s 0 [] w s1 L pad props vs w' s2 Hwf Hvs Hw ltac:(lia) Hs1 Ee) as (payload & He & Hs2 & Hw').
    rewrite N.add_0_l in Hs2. cbn [app] in Hs2. pose proof (finish_state d o h s _ payload w' s2 L pad props Hg Hn Hs2) as HF.
    destruct (final_shape h o (lenN vs)) as [ shape | ] eqn:Es.
    2:{ destruct HF as (r & _ & _ & HF & _). rewrite HF in H. apply pair_inj in H as (H & _). destruct (r =? 0); discriminate. }
    destruct HF as (Hsh & Hax & HF). destruct (HF _ _ H) as (_ & [ (_ & Hd & Hp) | (HE & _) ]); [ | discriminate ].
    destruct (shape_with_ok h o (lenN vs) shape Hg Hh Hn Es Hsh) as (Hs64 & Hno & Hcnt).
    set (ax := dec (variable_axis h (lenN vs))) in *. assert (Hax' : lenN ax <= 20) by (apply dec_length_u64; lia).
    pose proof (gs_headers _ _ _ _ _ _ _ _ _ _ _ Hs2 ax Hax' (dec_ascii _)) as Hhdr.
    exists shape, (L ++ suffix o h ax ++ repeatN 32 pad ++ [10]), payload. split; [ auto | split; [ auto | split; [ | split; [ | split; [ | split; [ auto | split ] ] ] ] ] ].
    + unfold placed. rewrite Hd. unfold overwrite. app_norm. reflexivity.
    + intros HN. destruct (Hp (Hfu HN)) as (Hp1 & Hp2 & _). split; [ | auto ]. rewrite Hp1, (gs_pos _ _ _ _ _ _ _ _ _ _ _ Hs2).
      pose proof filler_ok as (Hf1 & _). rewrite !lenN_app, !suffix_len by auto. lia.
    + apply opens_with; auto. intros c' rest. rewrite <- app_assoc. subst shape. apply (read_grown c' d o h _ _ _ _ Hwf Ht Hg Hs64 Hhdr).
    + intros _. exact Hsh.
    + exists props, pad. destruct h; [ destruct Hg | | ]; exact Hhdr.
  - destruct Hh as (Hs64 & Hno). destruct (begin_fixed c t d o shape _ s w s1 Eb) as (Ht & Hw & hdr & Hs1).
    destruct (extend_fixed c t d o shape s 0 [] w s1 hdr vs w' s2 Hwf Hvs Hw ltac:(lia) Hs1 Ee) as (payload & He & (F1 & F2 & F3 & (props & pad & F4) & F5) & Hw').
    cbn [app] in F5. rewrite N.add_0_l in F2. destruct F1 as (c1 & F1 & e & Fe). rewrite Fe in F1.
    destruct (known_finish w' e s2 _ _ Fe H) as (K1 & K2 & K3). rewrite F2 in K3.
    unfold product in F1. rewrite product_from_fits in F1 by (now apply no_overflow_fits). apply Ok_inj in F1. rewrite N.mul_1_l in F1.
    destruct (N.eqb_spec e (lenN vs)) as [ Ee' | ]; [ | discriminate ].
    exists shape, hdr, payload. split; [ cbn [final_shape]; rewrite F1, Ee', N.eqb_refl; reflexivity | ]. split; [ auto | ].
    assert (Hs' : s' = put s (hdr ++ payload) (sk_fuel s')).
    { rewrite <- (app_nil_r (hdr ++ payload)). eapply put_trans; eauto. }
    split; [ | split; [ | split; [ | split; [ auto | split ] ] ] ].
    + rewrite Hs'. apply placed_put. destruct hdr; [ congruence | discriminate ].
    + intros HN. split; [ rewrite Hs'; reflexivity | ]. rewrite (K2 (Hfu HN)). auto.
    + apply opens_with; auto. intros c' rest. rewrite <- app_assoc. apply (read_written_nd c' d o shape hdr props pad Hwf Ht Hs64 F4).
    + intros [].
    + exists props, pad. exact F4.
Qed.
Lemma write_file_ok c t d o h vs s s' : wf_dtype d -> Forall (has_type t) vs -> lenN vs < 2 ^ 64 -> hint_ok h ->
  write_file c t d o h (output_kind h) vs s = (Ok tt, s') ->
  exists shape hdr payload, final_shape h o (lenN vs) = Some shape /\ encodings t d vs payload
  /\ placed (sk_data s) (sk_pos s) (hdr ++ payload) (sk_data s')
  /\ (sk_fuel s = None -> sk_pos s' = sk_pos s + lenN (hdr ++ payload) /\ sk_fuel s' = None)
  /\ file_with d o shape (hdr ++ payload) payload.
Proof.
  intros Hwf Hvs Hn Hh H. destruct (write_file_full c t d o h vs s s' Hwf Hvs Hn Hh H) as (shape & hdr & payload & H1 & H2 & H3 & H4 & H5 & _). exists shape, hdr, payload. auto.
Qed.

(** * Success on an output that does not fail *)
Lemma short_fits dict : lenN dict <= 65525 -> header_fits dict.
Proof. intros H. unfold header_fits. change (2 ^ 32 - 13) with 4294967283. destruct (_ || _); lia. Qed.
Lemma dict_prefix_len d o : lenN (dict_prefix d o) <= lenN (utf8 (descr d)) + 50.
Proof.
  unfold dict_prefix. rewrite !lenN_app. destruct o;
  change (lenN (lit "{'descr': ")) with 10; change (lenN (lit ", 'fortran_order': ")) with 19; change (lenN (lit ", 'shape': (")) with 12;
  change (lenN (lit "False")) with 5; change (lenN (lit "True")) with 4; lia.
Qed.
Lemma shape_items_len shape : Forall (fun n => n < 2 ^ 64) shape -> lenN (shape_items shape) <= 22 * lenN shape.
Proof.
  induction 1 as [ | n l Hn Hl IH ]; [ discriminate | ]. cbn [shape_items]. rewrite !lenN_app, lenN_cons. change (lenN (lit ", ")) with 2.
  pose proof (dec_length_u64 n Hn). lia.
Qed.
Lemma create_short c d o h : hint_ok h -> short_header d h ->
  exists dict info, create_dict c d o h = Ok (dict, info) /\ header_fits dict.
Proof.
  intros Hh Hs. assert (Hg : growing h \/ exists shape, h = NDimensional shape) by (destruct h; cbn; eauto). pose proof (dict_prefix_len d o) as Hp. destruct Hg as [ Hg | (shape & ->) ].
  - rewrite create_growing by auto. eexists _, _. split; [ reflexivity | ]. apply short_fits. rewrite lenN_app, suffix_len by (auto; apply filler_ok).
    destruct h as [ sh | r | ]; [ destruct Hg | | ]; unfold short_header in Hs; [ | lia ]. pose proof (dec_length_u64 r Hh). lia.
  - destruct Hh as (H64 & Hno). cbn [create_dict]. unfold product. rewrite product_from_fits by (now apply no_overflow_fits). cbn [bind].
    eexists _, _. split; [ reflexivity | ]. apply short_fits. rewrite !lenN_app. change (lenN (lit "), }")) with 4. pose proof (shape_items_len shape H64).
    unfold short_header in Hs. lia.
Qed.

Lemma finish_fixed_ok w e s : w_shape_info w = Known e -> sk_fuel s = None -> e = w_num_items w -> finish w s = (Ok tt, s).
Proof.
  intros Hi Hf He. unfold finish, drop_writer, finish_. rewrite Hi, He, N.eqb_refl. cbn [negb]. unfold sink_flush. now rewrite !tick_none by auto.
Qed.

Lemma write_file_succeeds c t d o h vs payload s : wf_dtype d -> strings_fit (c_usize_max c) d -> top_level d -> accepts (c_usize_max c) Writing t d -> Forall (has_type t) vs ->
  lenN vs < 2 ^ 64 -> hint_ok h -> short_header d h -> encodings t d vs payload -> sk_fuel s = None ->
  exists r s', write_file c t d o h (output_kind h) vs s = (r, s') /\
    match final_shape h o (lenN vs) with
    | Some _ => r = Ok tt
    | None => match h with TwoDimensional 0 => r = Panic | _ => exists e, r = Err e end
    end.
Proof.
  intros Hwf Hsf Ht Ha Hvs Hn Hh Hs He Hf. destruct (create_short c d o h Hh Hs) as (dict & info & Hc & Hfit). apply writer_accepts in Ha as (tw & Hw).
  destruct (begin_ok_intro c t d o h (output_kind h) s dict info tw Ht Hc Hfit Hw Hf) as (w & hdr & Hb).
  unfold write_file, sbind. rewrite Hb. set (s1 := put s hdr None) in *. assert (Hf1 : sk_fuel s1 = None) by reflexivity. clearbody s1.
  assert (Hg : growing h \/ exists shape, h = NDimensional shape) by (destruct h; cbn; eauto).
  unfold push_all_and_finish.
  destruct Hg as [ Hg | (shape & ->) ].
  - assert (Ek : output_kind h = true) by (destruct h; [ destruct Hg | | ]; reflexivity). rewrite Ek in Hb.
    destruct (begin_growing c t d o h s w s1 Hg Hb) as (_ & Hw1 & L & pad & props & Hs1).
    assert (Hn1 : w_num_items w + lenN vs < 2 ^ 64) by (rewrite (gs_count _ _ _ _ _ _ _ _ _ _ _ Hs1); lia).
    pose proof (extend_ok_intro c t d vs Hwf Hsf Hvs w s1 payload Hw1 Hn1 He Hf1) as Ee. rewrite Ee.
    destruct (extend_growing c t d o h s 0 [] w s1 L pad props vs _ _ Hwf Hvs Hw1 ltac:(lia) Hs1 Ee) as (payload' & He' & Hs2 & Hw').
    rewrite N.add_0_l in Hs2. pose proof (finish_state d o h s _ _ _ _ L pad props Hg Hn Hs2) as HF.
    destruct (final_shape h o (lenN vs)) as [ shape | ] eqn:Es.
    + destruct HF as (_ & _ & HF). destruct (finish _ _) as (r, s') eqn:Ef. exists r, s'. split; [ auto | ].
      destruct (HF _ _ eq_refl) as (_ & [ (-> & _) | (_ & (m & Hm) & _) ]); [ auto | discriminate Hm ].
    + destruct HF as (r & Hr & _ & HF & _). rewrite HF. eexists _, _. split; [ reflexivity | ]. subst h. destruct r; cbn; eauto.
  - destruct (begin_fixed c t d o shape _ s w s1 Hb) as (_ & Hw1 & hdr1 & Hs1).
    assert (Hn1 : w_num_items w + lenN vs < 2 ^ 64) by (destruct Hs1 as (_ & -> & _); lia).
    pose proof (extend_ok_intro c t d vs Hwf Hsf Hvs w s1 payload Hw1 Hn1 He Hf1) as Ee. rewrite Ee.
    destruct (extend_fixed c t d o shape s 0 [] w s1 hdr1 vs _ _ Hwf Hvs Hw1 ltac:(lia) Hs1 Ee) as (payload' & He' & ((c1 & F1 & e & Fe) & F2 & _) & Hw').
    rewrite N.add_0_l in F2. rewrite Fe in F1. destruct Hh as (H64 & Hno).
    unfold product in F1. rewrite product_from_fits in F1 by (now apply no_overflow_fits). apply Ok_inj in F1. rewrite N.mul_1_l in F1.
    cbn [final_shape]. destruct (finish _ _) as (r, s') eqn:Ef. exists r, s'. split; [ auto | ].
    apply (known_finish _ e _ _ _ Fe) in Ef as (_ & _ & Ef). rewrite F2 in Ef. subst e.
    destruct (N.eqb_spec (count shape) (lenN vs)) as [ E | E ]; [ destruct Ef as [ | (_ & Hx) ]; [ auto | now elim Hx ] | eauto ].
Qed.

(** * Reading it back *)
Lemma placed_rest data pos file data' : placed data pos file data' -> dropN pos data' = file ++ dropN (pos + lenN file) data.
Proof.
  unfold placed. intros ->. rewrite app_assoc. rewrite dropN_app; [ reflexivity | ]. rewrite lenN_app, lenN_takeN, lenN_repeatN. lia.
Qed.
Lemma replicate_written c t d rd m vs : wf_dtype d -> strings_fit (c_usize_max c) d -> reader c t d = DOk rd -> accepts m Writing t d -> Forall (has_type t) vs -> forall payload rest,
  encodings t d vs payload -> run (rreplicate (List.length vs) (read_one c rd)) (payload ++ rest) = (Ok (map (read_back t d) vs), rest).
Proof.
  intros Hwf Hsf Hr Ha Hvs. induction Hvs as [ | v vs Hv Hvs IH ]; intros payload rest He.
  - destruct He as (bl & H & ->). inversion H; subst. reflexivity.
  - apply encodings_inv in He as (b & bs & Eb & He & ->). cbn [List.length map]. rewrite run_rreplicate_S, <- app_assoc.
    destruct (encode_len t _ _ _ _ Ha Hv Eb) as (Hl & Hb).
    rewrite (proj2 (read_exact_item c t d rd b (bs ++ rest) (read_back t d v) Hwf Hsf Hr Hl Hb)).
    + cbn [then_]. rewrite IH by auto. reflexivity.
    + eapply decode_encode; eauto. apply (reader_accepts c t d). eauto.
Qed.
Lemma file_reads_back c m t d o shape vs pos data file payload data' : wf_dtype d -> strings_fit (c_usize_max c) d -> Forall (has_type t) vs ->
  accepts m Writing t d -> accepts (c_usize_max c) Reading t d -> sizes_fit (c_usize_max c) d -> count shape = lenN vs ->
  encodings t d vs payload -> placed data pos file data' -> file_with d o shape file payload ->
  exists f src', npy_new c {| cur_data := data'; cur_pos := pos |} = (Ok f, src') /\ h_dtype (nf_header f) = d /\ h_shape (nf_header f) = shape
  /\ h_order (nf_header f) = o /\ fst (npy_into_vec c t f) = Ok (map (read_back t d) vs).
Proof.
  intros Hwf Hsf Hvs Ha Hr Hsz Hcnt He Hp Hf. pose proof (accepts_no_object _ _ _ _ Ha) as Hno.
  assert (Hnb : exists n, num_bytes c d = Some n) by (exists (size d); apply num_bytes_exact; auto).
  destruct (Hf c (dropN (pos + lenN file) data) Hnb) as (h & Hrun & Hd & Hs & Ho & Hn). rewrite <- (placed_rest _ _ _ _ Hp) in Hrun.
  destruct (npy_new c {| cur_data := data'; cur_pos := pos |}) as (r, src') eqn:En.
  unfold npy_new in En. assert (Hrun' := Hrun). unfold run_cursor, cur_rest in En. cbn [cur_data cur_pos] in En. rewrite Hrun in En. apply pair_inj in En as (<- & <-).
  eexists _, _. split; [ reflexivity | ]. cbn [nf_header]. do 3 (split; [ assumption | ]).
  apply reader_accepts in Hr as (rd & Hrd). set (f := {| nf_header := h; nf_src := _ |}).
  assert (Hfp : h_pickled h = false).
  { pose proof Hrun as H. destruct (npy_new c {| cur_data := data'; cur_pos := pos |}) as (x, y) eqn:En. pose proof En as En'.
    unfold npy_new, run_cursor, cur_rest in En. cbn [cur_data cur_pos] in En. rewrite Hrun in En. apply pair_inj in En as (<- & <-).
    apply npy_new_inv in En' as (_ & _ & d' & sh' & o' & Hp'). cbn [nf_header] in Hp'. apply from_parts_ok in Hp' as (E & _ & _ & _ & _ & Hk & _). rewrite Hk.
    destruct (uses_pickled_array d') eqn:Eu; [ | reflexivity ]. apply pickled_exact in Eu. congruence. }
  assert (Hdata : npy_data c t f = DOk {| nr_header := h; nr_type := rd; nr_src := nf_src f; nr_index := 0 |}).
  { unfold npy_data. cbn [nf_header f]. rewrite Hfp, Hd, Hrd. reflexivity. }
  rewrite (into_vec_run c t f _ Hdata). cbn [nr_type nf_header f]. unfold run_cursor. cbn [fst].
  assert (Hrest : cur_rest (nf_src f) = payload ++ dropN (pos + lenN file) data).
  { unfold f, cur_rest. cbn [nf_src cur_data cur_pos]. apply run_suffix in Hrun as (used & Hu).
    transitivity (dropN (lenN (dropN pos data') - lenN (payload ++ dropN (pos + lenN file) data)) (dropN pos data')).
    - rewrite dropN_dropN. f_equal. lia.
    - rewrite Hu at 2. apply dropN_app. rewrite Hu, lenN_app. lia. }
  rewrite Hrest, Hn, Hcnt. replace (N.to_nat (lenN vs)) with (List.length vs) by (unfold lenN; lia).
  rewrite (replicate_written c t d rd m vs Hwf Hsf Hrd Ha Hvs payload _ He). reflexivity.
Qed.
