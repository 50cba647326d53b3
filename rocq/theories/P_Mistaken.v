(** Growing files whose interrupted patch is mistaken for another shape. *)
From Verif Require Import M_Base M_Text M_TypeStr M_PyLit M_IO M_Header M_Read M_Serialize M_NpyReader M_Write.
From Verif Require Import S_Text S_TypeStr S_DType S_Shape S_Header S_Elem S_Strings S_Reader S_Write
  P_Base P_Text P_TypeStr P_PyLit P_Header P_IO P_Sink P_Shape P_WriteHeader P_Number P_Elem P_ReadOne P_WriteOne P_Codec P_Sizes P_Strings P_Parse P_ElemT
  P_Writer P_WriteFile P_Session P_Weight P_Crash T_Text.
Open Scope N_scope.

(** * Cutting an output inside the final patch *)
Lemma begin_cut c t d o h dict info tw m : top_level d -> create_dict c d o h = Ok (dict, info) -> header_fits dict -> writer c t d = DOk tw ->
  exists hdr, forall s, sk_fuel s = Some (1 + lenN hdr + m) -> exists w, begin_ c t d o h true s = (Ok w, put s hdr (Some m)).
Proof.
  intros Ht Hc Hf Hw. destruct (write_header_full c d o h dict info Ht Hc) as (pad & props & hdr & version & _ & _ & _ & Hok & _).
  exists hdr. intros s Hm. unfold begin_, sbind at 1 2, sink_tell, sink_tick. rewrite Hm. replace (1 + lenN hdr + m =? 0) with false by lia.
  unfold sret at 1. unfold sbind at 1. rewrite (Hok Hf). unfold sbind at 1.
  rewrite (sink_write_some _ hdr (1 + lenN hdr + m - 1)) by reflexivity. replace (lenN hdr <=? 1 + lenN hdr + m - 1) with true by lia.
  unfold sret at 1. rewrite Hw. eexists _. unfold sret. f_equal. unfold put. cbn [sk_data sk_pos sk_fuel]. f_equal. f_equal. lia.
Qed.

Lemma push_each_cut c t d vs payload : wf_dtype d -> strings_fit (c_usize_max c) d -> Forall (has_type t) vs -> encodings t d vs payload ->
  forall w s m, writer c t d = DOk (w_writer w) -> w_num_items w + lenN vs < 2 ^ 64 -> sk_fuel s = Some (lenN payload + m) ->
  exists rs w', push_each c vs w s = (rs, w', put s payload (Some m)).
Proof.
  intros Hwf Hsf Hvs. revert payload. induction Hvs as [ | v vs Hv Hvs IH ]; intros payload He w s m Hw Hn Hm; cbn [push_each].
  - destruct He as (bl & H1 & ->). inversion H1; subst. exists [], w. f_equal. cbn [List.concat] in *. rewrite put_nil. change (lenN (@nil N)) with 0 in Hm. rewrite N.add_0_l in Hm. rewrite <- Hm. now destruct s.
  - apply encodings_inv in He as (b & bs & Eb & He & ->). rewrite lenN_cons in Hn. rewrite lenN_app in Hm. rewrite push_eq by lia.
    apply (write_exact c t d _ v b Hwf Hsf Hw Hv) in Eb. rewrite Eb. unfold sbind. rewrite (sink_write_some s b (lenN b + lenN bs + m)) by auto. replace (lenN b <=? lenN b + lenN bs + m) with true by lia.
    unfold sret. destruct (IH bs He (with_count w (w_num_items w + 1)) (put s b (Some (lenN b + lenN bs + m - lenN b))) m) as (rs & w' & E); auto.
    { cbn [w_num_items with_count]. lia. }
    { cbn [put sk_fuel]. f_equal. lia. }
    rewrite E. eexists _, w'. f_equal. exact (put_trans s _ (put (put s b _) bs (Some m)) b bs eq_refl eq_refl).
Qed.

Lemma session_cut c t d o h vs e D payload shape k tw : growing h -> hint_ok h -> short_header d h -> top_level d -> wf_dtype d -> strings_fit (c_usize_max c) d ->
  Forall (has_type t) vs -> encodings t d vs payload -> lenN vs < 2 ^ 64 -> writer c t d = DOk tw -> final_shape h o (lenN vs) = Some shape ->
  let new := suffix o h (dec (variable_axis h (lenN vs))) in
  0 < k -> k < lenN new ->
  exists fuel r s' w s2 L pad props, session c t d o h true vs e {| sk_data := D; sk_pos := lenN D; sk_fuel := fuel |} = (r, s')
  /\ growing_state d o h {| sk_data := D; sk_pos := lenN D; sk_fuel := fuel |} (lenN vs) payload w s2 L pad props
  /\ sk_data s' = D ++ (L ++ (takeN k new ++ dropN k (suffix o h filler)) ++ repeatN 32 pad ++ [10]) ++ payload.
Proof.
  intros Hg Hh Hsh Ht Hwf Hsf Hvs He Hn Hw Hfs new Hk0 Hk.
  destruct (create_short c d o h Hh Hsh) as (dict & info & Hc & Hfit).
  destruct (begin_cut c t d o h dict info tw (lenN payload + (2 + k)) Ht Hc Hfit Hw) as (hdr & Hb).
  set (fuel := Some (1 + lenN hdr + (lenN payload + (2 + k)))). set (s := {| sk_data := D; sk_pos := lenN D; sk_fuel := fuel |}).
  destruct (Hb s eq_refl) as (w & Eb). destruct (begin_growing c t d o h s w _ Hg Eb) as (_ & Hw' & L & pad & props & Hs1).
  pose proof (gs_count _ _ _ _ _ _ _ _ _ _ _ Hs1) as Hc0.
  destruct (push_each_cut c t d vs payload Hwf Hsf Hvs He w (put s hdr (Some (lenN payload + (2 + k)))) (2 + k) Hw' ltac:(lia) eq_refl) as (rs & w' & Ep).
  destruct (push_each_growing c d o h s 0 [] w _ L pad props vs rs w' _ ltac:(lia) Hs1 Ep) as (more & Hs2). rewrite N.add_0_l in Hs2. cbn [app] in Hs2.
  set (s2 := put (put s hdr _) payload (Some (2 + k))) in *.
  assert (more = payload) as ->.
  { pose proof (gs_data _ _ _ _ _ _ _ _ _ _ _ Hs2) as D2. unfold s2 in D2. pose proof (gs_data _ _ _ _ _ _ _ _ _ _ _ Hs1) as D1.
    rewrite (put_end s) in D1 by reflexivity. rewrite (put_end s), put_end in D2 by reflexivity. cbn [sk_data sk_pos] in D1, D2. rewrite D1 in D2.
    change (sk_pos s) with (lenN (sk_data s)) in D2. rewrite !overwrite_end in D2. rewrite <- !app_assoc in D2. repeat apply app_inv_head in D2. first [ exact D2 | symmetry; exact D2 ]. }
  destruct Hs2 as [ G1 G2 G3 G4 G5 G6 G7 G8 G9 ] eqn:Egs. clear Egs. pose proof (finish_growing d o h w' (lenN vs) Hg G3 G4 Hn) as HF. rewrite Hfs in HF. destruct HF as (HF & _ & Hax).
  fold new in HF. set (old := suffix o h filler) in *.
  assert (Hlen : lenN new = lenN old) by (unfold new, old; rewrite !suffix_len; auto; [ apply filler_ok | apply dec_length_u64; lia ]).
  set (s3 := {| sk_data := overwrite (sk_data s2) (lenN D + lenN L) (takeN k new); sk_pos := lenN D + lenN L + k; sk_fuel := Some 0 |}).
  assert (E3 : finish_ w' s2 = (Err ESink, s3)).
  { rewrite HF. unfold finishing, patch. rewrite G2, G1. unfold ms_tell, ms_seek, sbind, sink_tell, sink_seek, sink_tick.
    change (sk_fuel s2) with (Some (2 + k)). cbv iota beta. replace (2 + k =? 0) with false by lia. cbn [sk_fuel sk_data sk_pos]. replace (2 + k - 1 =? 0) with false by lia.
    cbn [sk_fuel sk_data sk_pos sret]. rewrite (sink_write_some _ new k) by (cbn [sk_fuel]; f_equal; lia). replace (lenN new <=? k) with false by lia.
    f_equal. unfold put, s3. cbn [sk_data sk_pos]. rewrite lenN_takeN. change (sk_pos s) with (lenN D).
    replace (lenN D + bytes_before_text (w_version_props w') + lenN (dict_prefix d o)) with (lenN D + lenN L) by (rewrite G5, G6; lia).
    replace (N.min k (lenN new)) with k by lia. destruct (takeN k new) eqn:E; [ | reflexivity ]. apply (f_equal lenN) in E. rewrite lenN_takeN, lenN_nil in E. lia. }
  assert (H4 : exists r, ended e w' s2 = (r, s3)).
  { destruct e; cbn [ended].
    - unfold finish, drop_writer. rewrite E3. assert (E4 : finish_ w' s3 = (Err ESink, s3)) by (rewrite HF; unfold finishing, patch; rewrite G2, G1; reflexivity). rewrite E4. eauto.
    - unfold drop_writer. rewrite E3. eauto. }
  destruct H4 as (r & H4). exists fuel, (Ok (rs, r)), s3, w', s2, L, pad, props. split; [ | split ].
  - unfold session. fold s. rewrite Eb, Ep, H4. reflexivity.
  - exact Hs2.
  - unfold s3. cbn [sk_data]. rewrite G8. change (sk_data s) with D. change (sk_pos s) with (lenN D). rewrite <- (takeN_dropN k old) at 1. rewrite <- app_assoc.
    rewrite overwrite_mid by (rewrite !lenN_takeN; lia). rewrite overwrite_end. rewrite <- !app_assoc. reflexivity.
Qed.

(** * Numerals *)
Lemma decimal_value_bound s : Forall (fun x => 48 <= x <= 57) s -> decimal_value s < 10 ^ lenN s.
Proof.
  induction 1 as [ | x s Hx Hs IH ]; [ reflexivity | ]. cbn [decimal_value]. rewrite lenN_cons, N.pow_add_r. change (10 ^ 1) with 10. fold (lenN s).
  assert (0 < 10 ^ lenN s) by (apply N.neq_0_lt_0, N.pow_nonzero; discriminate). set (P := 10 ^ lenN s) in *. nia.
Qed.
(** A numeral's first digits, and the numeral after them, are numerals. *)
Lemma numeral_dec s : Forall (fun x => 48 <= x <= 57) s -> (exists x r, s = x :: r /\ x <> 48) -> s = dec (decimal_value s).
Proof. intros H1 H2. apply decimal_exact. unfold shortest_numeral. auto. Qed.
Lemma dec_digits' n : Forall (fun x => 48 <= x <= 57) (dec n).
Proof. eapply Forall_impl; [ | apply dec_digits ]. cbn. unfold is_digit. intros a Ha. lia. Qed.
Lemma dec_first k n R : k <> 0 -> 1 <= n -> exists x r, takeN n (dec k) ++ R = x :: r /\ x <> 48.
Proof.
  intros Hk Hn. destruct (dec_head k Hk) as (x & r & E & Hx). rewrite E. exists x, (takeN (n - 1) r ++ R). split; [ | lia ].
  replace n with (1 + (n - 1)) at 1 by lia. rewrite takeN_add. reflexivity.
Qed.

(** * What is read *)
Lemma u64_mul_fine c a b e : u64_mul c a b <> Err e.
Proof. unfold u64_mul. destruct (_ <? _); [ discriminate | ]. destruct (c_ovf_panics c); discriminate. Qed.
Lemma product_fine c l : forall a e, product_from c a l <> Err e.
Proof.
  induction l as [ | x l IH ]; intros a e H; cbn [product_from] in H; [ discriminate | ]. destruct (u64_mul c a x) eqn:E; cbn [bind] in H; [ now apply IH in H | | discriminate ].
  now apply u64_mul_fine in E.
Qed.
Lemma prefix_products_fine c l : forall a e, prefix_products_from c a l <> Err e.
Proof.
  induction l as [ | x l IH ]; intros a e H; cbn [prefix_products_from] in H; [ discriminate | ]. destruct (u64_mul c a x) eqn:E; cbn [bind] in H; [ | now apply u64_mul_fine in E | discriminate ].
  match type of H with context [prefix_products_from c ?b l] => destruct (prefix_products_from c b l) eqn:E2 end; cbn [bind] in H; [ discriminate | now apply IH in E2 | discriminate ].
Qed.
Lemma strides_fine c o shape e : strides c o shape <> Err e.
Proof.
  unfold strides, prefix_products. intros H. destruct o; [ | now apply prefix_products_fine in H ].
  destruct (prefix_products_from c 1 (rev shape)) eqn:E; cbn [bind] in H; [ discriminate | now apply prefix_products_fine in E | discriminate ].
Qed.
Lemma from_parts_fine c d shape o e : (exists n, num_bytes c d = Some n) -> from_parts c d shape o <> Err e.
Proof.
  intros (n & Hn) H. unfold from_parts, product in H. destruct (product_from c 1 shape) eqn:E1; cbn [bind] in H; [ | now apply product_fine in E1 | discriminate ].
  rewrite Hn in H. destruct (strides c o shape) eqn:E2; [ | now apply strides_fine in E2 | ]; destruct (uses_pickled_array d); discriminate H.
Qed.

Lemma mistaken_reads c d o h s0 n payload w s L pad props mid shape D vs t : growing h -> wf_dtype d -> top_level d -> growing_state d o h s0 n payload w s L pad props ->
  (exists n, num_bytes c d = Some n) -> lenN mid = lenN (suffix o h filler) -> ascii_text mid -> Forall (fun n => n < 2 ^ 64) shape ->
  parse_literal (dict_start d o ++ 40 :: mid ++ repeatN 32 pad) = Some (dict_value d o shape) -> final_shape h o (lenN vs) <> Some shape ->
  ~ whole_or_error c t d o h vs (D ++ (L ++ mid ++ repeatN 32 pad ++ [10]) ++ payload) (lenN D).
Proof.
  intros Hg Hw Ht Hs Hb Hl Ha H64 Hp Hne H. unfold whole_or_error in H. rewrite cursor_run in H.
  rewrite (read_header_of c _ _ _ _ (mid_header d o h s0 n payload w s L pad props mid Hg Hs Hl Ha)), parse_patched, Hp in H by auto. cbn [bind] in H. rewrite interpret_dict in H by auto.
  destruct (from_parts c d shape o) as [ hd | e | ] eqn:E; [ | now apply from_parts_fine in E | exact H ].
  apply from_parts_ok in E as (_ & E & _). destruct H as (sh & pl & F & _ & _ & H & _). cbn [nf_header] in H. rewrite E in H. subst sh. congruence.
Qed.

Lemma tuple3_prints a b c : prints (40 :: dec a ++ lit ", " ++ dec b ++ lit ", " ++ dec c ++ [41]) (VTuple [VInteger (Z.of_N a); VInteger (Z.of_N b); VInteger (Z.of_N c)]).
Proof.
  intros rest f _ Hf. cbn [List.length] in Hf. rewrite !app_length in Hf. cbn [List.length lit] in Hf.
  destruct f as [ | [ | [ | [ | f ] ] ] ]; [ lia | lia | lia | lia | ].
  replace ((40 :: dec a ++ lit ", " ++ dec b ++ lit ", " ++ dec c ++ [41]) ++ rest) with (40 :: dec a ++ 44 :: 32 :: dec b ++ 44 :: 32 :: dec c ++ 41 :: rest) by (app_norm; reflexivity).
  rewrite tuple_forward by (cbn; split; [ reflexivity | lia ]). cbn [skip_ws]. change (is_blank 44) with false. cbv iota. change (44 =? 44) with true. cbv iota.
  rewrite skip_ws_space, skip_ws_starter by apply dec_starter. rewrite items_forward by (cbn; split; [ reflexivity | lia ]).
  cbn [skip_ws]. change (is_blank 44) with false. cbv iota. change (44 =? 44) with true. change (44 =? 41) with false. cbv iota.
  rewrite skip_ws_space, skip_ws_starter by apply dec_starter. rewrite items_forward by (cbn; split; [ reflexivity | lia ]). reflexivity.
Qed.

(** * The two mistakes *)
Lemma take_numeral n k : k <> 0 -> 1 <= n -> exists r, takeN n (dec k) = dec r /\ r < 10 ^ n.
Proof.
  intros Hk Hn. exists (decimal_value (takeN n (dec k))). pose proof (dec_digits' k) as Hd. apply (Forall_takeN _ n) in Hd. split.
  - apply numeral_dec; auto. destruct (dec_first k n [] Hk Hn) as (x & r & E & Hx). rewrite app_nil_r in E. eauto.
  - eapply N.lt_le_trans; [ now apply decimal_value_bound | ]. apply N.pow_le_mono_r; [ discriminate | ]. rewrite lenN_takeN. lia.
Qed.
Lemma double_numeral n k : k <> 0 -> 1 <= n -> exists r, takeN n (dec k) ++ dec k = dec r /\ r < 10 ^ (n + lenN (dec k)).
Proof.
  intros Hk Hn. exists (decimal_value (takeN n (dec k) ++ dec k)). pose proof (dec_digits' k) as Hd. pose proof (Forall_takeN _ n _ Hd) as Hd'.
  assert (Ha : Forall (fun x => 48 <= x <= 57) (takeN n (dec k) ++ dec k)) by (apply Forall_app; auto). split.
  - apply numeral_dec; auto. now apply dec_first.
  - eapply N.lt_le_trans; [ now apply decimal_value_bound | ]. apply N.pow_le_mono_r; [ discriminate | ]. rewrite lenN_app, lenN_takeN. lia.
Qed.

Lemma mistake_text d k n : top_level d -> k <> 0 -> k < 2 ^ 64 -> n < 2 ^ 64 -> n * k < 2 ^ 64 ->
  lenN (dec n) <= 17 /\ 18 <= lenN (dec n) + lenN (dec k) \/ lenN (dec n) = 18 /\ 2 <= lenN (dec k) \/ lenN (dec n) = 19 ->
  exists b shape, 0 < b < 26 /\ shape <> [n; k] /\ Forall (fun x => x < 2 ^ 64) shape
  /\ forall pad, parse_literal (dict_start d OrderC ++ 40 :: mixed [] (dec n) (lit ", " ++ dec k) b ++ repeatN 32 pad) = Some (dict_value d OrderC shape).
Proof.
  intros Ht Hk Hk64 Hn64 Hnk Hm. assert (HQ : forall s, starter (40 :: s)) by (intros s; cbn; repeat split; lia).
  assert (Hmix : forall b, lenN (dec n) <= 20 + b -> 20 + b <= lenN (dec n) + (2 + lenN (dec k)) -> mixed [] (dec n) (lit ", " ++ dec k) (20 + b)
    = dec n ++ takeN (20 + b - lenN (dec n)) (lit ", " ++ dec k) ++ dropN b (lit ", " ++ dec k ++ tail4)).
  { intros b H1 H2. unfold mixed. cbn [app]. rewrite (takeN_app_gen (20 + b) (dec n)), (takeN_all (20 + b) (dec n)) by lia.
    rewrite (takeN_app_gen _ (lit ", " ++ dec k)). rewrite lenN_app. change (lenN (lit ", ")) with 2.
    replace (20 + b - lenN (dec n) - (2 + lenN (dec k))) with 0 by lia. rewrite takeN_0, app_nil_r, <- app_assoc. f_equal. f_equal.
    replace (20 + b) with (b + 20) by lia. rewrite <- dropN_dropN, (dropN_app 20) by reflexivity. rewrite <- app_assoc. reflexivity. }
  destruct Hm as [ (Hm & Hj) | Hm ].
  - destruct (take_numeral (18 - lenN (dec n)) k Hk ltac:(lia)) as (r & Er & Hr). exists 20, [n; r; k]. split; [ lia | ]. split; [ discriminate | ].
    assert (Hr64 : r < 2 ^ 64).
    { eapply N.lt_le_trans; [ exact Hr | ]. transitivity (10 ^ 18); [ apply N.pow_le_mono_r; [ discriminate | lia ] | discriminate ]. }
    split; [ now repeat constructor | ]. intros pad. pose proof (Hmix 0 ltac:(lia) ltac:(lia)) as E0. change (20 + 0) with 20 in E0. rewrite E0, dropN_0. replace (20 - lenN (dec n)) with (2 + (18 - lenN (dec n))) by lia.
    rewrite takeN_add. change (takeN 2 (lit ", " ++ dec k)) with (lit ", "). change (dropN 2 (lit ", " ++ dec k)) with (dropN 0 (dec k)). rewrite dropN_0, Er.
    pose proof (parse_tuple_end d OrderC _ _ [32] (repeatN 32 pad) Ht (HQ _) (tuple3_prints n r k) (blank_repeat 1) (blank_repeat _)) as G.
    change (dict_value d OrderC [n; r; k]) with (dict_values d OrderC (VTuple [VInteger (Z.of_N n); VInteger (Z.of_N r); VInteger (Z.of_N k)]) []). rewrite <- G. f_equal. f_equal. unfold tail4. app_norm. reflexivity.
  - destruct (double_numeral (20 - lenN (dec n)) k Hk ltac:(lia)) as (r & Er & Hr). exists 22, [n; r]. split; [ lia | ].
    assert (Hrk : r <> k).
    { intros ->. apply (f_equal lenN) in Er. rewrite lenN_app, lenN_takeN in Er. pose proof (dec_some k). lia. }
    split; [ congruence | ].
    assert (Hj : lenN (dec k) <= 3).
    { pose proof (dec_min k ltac:(lia)) as Hmin. destruct (N.le_gt_cases (lenN (dec k)) 3) as [ | Hgt ]; auto. exfalso.
      assert (H3 : 10 ^ 3 <= 10 ^ (lenN (dec k) - 1)) by (apply N.pow_le_mono_r; [ discriminate | lia ]).
      assert (Hn0 : n <> 0) by (intros ->; change (lenN (dec 0)) with 1 in Hm; lia). pose proof (dec_min n ltac:(lia)) as Hmn.
      assert (H17 : 10 ^ 17 <= 10 ^ (lenN (dec n) - 1)) by (apply N.pow_le_mono_r; [ discriminate | lia ]).
      change (10 ^ 3) with 1000 in H3. change (10 ^ 17) with 100000000000000000 in H17. change (2 ^ 64) with 18446744073709551616 in Hnk. nia. }
    assert (Hr64 : r < 2 ^ 64).
    { eapply N.lt_le_trans; [ exact Hr | ]. transitivity (10 ^ 5); [ apply N.pow_le_mono_r; [ discriminate | lia ] | discriminate ]. }
    split; [ now repeat constructor | ]. intros pad. pose proof (dec_some k) as Hsk. pose proof (Hmix 2 ltac:(lia) ltac:(lia)) as E0. change (20 + 2) with 22 in E0. rewrite E0. change (dropN 2 (lit ", " ++ dec k ++ tail4)) with (dropN 0 (dec k ++ tail4)). rewrite dropN_0.
    replace (22 - lenN (dec n)) with (2 + (20 - lenN (dec n))) by lia.
    rewrite takeN_add. change (takeN 2 (lit ", " ++ dec k)) with (lit ", "). change (dropN 2 (lit ", " ++ dec k)) with (dropN 0 (dec k)). rewrite dropN_0.
    pose proof (parse_tuple_end d OrderC _ _ [32] (repeatN 32 pad) Ht (HQ _) (tuple2_prints n r) (blank_repeat 1) (blank_repeat _)) as G.
    change (dict_value d OrderC [n; r]) with (dict_values d OrderC (VTuple [VInteger (Z.of_N n); VInteger (Z.of_N r)]) []). rewrite <- G. f_equal. f_equal. rewrite <- Er. unfold tail4. app_norm. reflexivity.
Qed.

Lemma interrupted_mistaken c c' t d k vs e D tw : wf_dtype d -> top_level d -> strings_fit (c_usize_max c) d -> Forall (has_type t) vs ->
  Forall (fun v => exists b, encode t d v = Some b) vs -> lenN vs < 2 ^ 64 -> k < 2 ^ 64 -> (exists n, num_bytes c' d = Some n) ->
  writer c t d = DOk tw -> short_header d (TwoDimensional k) -> mistakable (lenN vs) k ->
  exists fuel r s', session c t d OrderC (TwoDimensional k) true vs e {| sk_data := D; sk_pos := lenN D; sk_fuel := fuel |} = (r, s')
  /\ ~ whole_or_error c' t d OrderC (TwoDimensional k) vs (sk_data s') (lenN D).
Proof.
  intros Hw Ht Hsf Hvs He Hn Hk Hb Hwr Hsh (Hk0 & Hmod & Hm). unfold numeral_length in Hm. set (n := lenN vs / k) in *.
  assert (Hfs : final_shape (TwoDimensional k) OrderC (lenN vs) = Some [n; k]).
  { cbn [final_shape]. rewrite Hmod. replace (k =? 0) with false by lia. reflexivity. }
  assert (Hnk : n * k = lenN vs) by (pose proof (N.div_mod (lenN vs) k Hk0); fold n in H; lia).
  assert (Hn64 : n < 2 ^ 64) by nia.
  assert (Hpay : exists payload, encodings t d vs payload).
  { clear -He. induction He as [ | v vs (b & Eb) _ (p & Hp) ]; [ exists []; apply encodings_nil | ]. exists (b ++ p). now apply encodings_cons. }
  destruct Hpay as (payload & Hpay).
  destruct (mistake_text d k n Ht Hk0 Hk Hn64 ltac:(lia) Hm) as (b & shape & Hb26 & Hne & H64 & Hp).
  assert (Hlen : lenN (suffix OrderC (TwoDimensional k) (dec n)) = 26 + lenN (dec k)) by (rewrite suffix_len; [ lia | apply dec_length_u64; auto | exact I ]).
  destruct (session_cut c t d OrderC (TwoDimensional k) vs e D payload [n; k] b tw I Hk Hsh Ht Hw Hsf Hvs Hpay Hn Hwr Hfs ltac:(lia)) as (fuel & r & s' & w & s2 & L & pad & props & E & G & Hd).
  { cbn [variable_axis]. fold n. rewrite Hlen. lia. }
  exists fuel, r, s'. split; [ exact E | ]. rewrite Hd. cbn [variable_axis] in *. fold n. rewrite mixed_eq by exact I.
  apply (mistaken_reads c' d OrderC (TwoDimensional k) _ _ payload w s2 L pad props _ shape D vs t I Hw Ht G Hb); auto.
  - rewrite <- mixed_eq by exact I. rewrite lenN_app, lenN_takeN, lenN_dropN, Hlen. rewrite suffix_len; [ | apply filler_ok | exact I ]. lia.
  - rewrite <- mixed_eq by exact I. apply Forall_app; split; [ apply Forall_takeN | apply Forall_dropN ]; apply suffix_ascii; [ apply dec_ascii | apply filler_ok ].
  - rewrite Hfs. congruence.
Qed.
