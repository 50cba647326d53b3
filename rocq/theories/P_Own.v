(** Element types of the caller's own. *)
From Verif Require Import M_Base M_Text M_TypeStr M_PyLit M_IO M_Header M_Read M_Serialize M_DTypeErr M_NpyReader M_Write M_Own.
From Verif Require Import S_TypeStr S_DType S_Shape S_Header S_Elem S_Strings S_Reader S_Write S_History S_Own
  P_Base P_Text P_TypeStr P_PyLit P_Header P_IO P_Sink P_Shape P_WriteHeader P_Number P_Elem P_ReadOne P_WriteOne P_Codec P_Sizes P_Strings P_Parse P_ElemT P_Reader P_Array P_Writer P_WriteFile.
Open Scope N_scope.

(** * Reading *)
(** What is known of an open file. *)
Definition own_opens (f : npy_file) : Prop :=
  h_n_records (nf_header f) < 2 ^ 64 /\ h_item_size (nf_header f) = Some (size (h_dtype (nf_header f))).
Lemma own_data_opens {V} c (de : own_deserialize V) src f src' r : npy_new c src = (Ok f, src') -> own_data de f = inl r ->
  own_opens f /\ exists u, de (h_dtype (nf_header f)) = inl u /\ r = {| og_header := nf_header f; og_type := u; og_src := nf_src f; og_index := 0 |}.
Proof.
  intros Hf Hr. apply npy_new_inv in Hf as (_ & _ & d & shape & o & Hp). unfold own_data in Hr. destruct (h_pickled (nf_header f)) eqn:Ek; [ discriminate | ].
  pose proof (from_parts_ok _ _ _ _ _ Hp) as (Hd & _ & _ & Hn & _ & Hk & _). split.
  - split; [ eapply product_lt; eauto | ]. subst d. apply (from_parts_item_size _ _ _ _ _ Hp). intros Ho. apply pickled_exact in Ho. congruence.
  - destruct (de (h_dtype (nf_header f))) as [ u | msg ]; [ | discriminate ]. exists u. split; [ reflexivity | ]. now injection Hr as <-.
Qed.

(** The reader in front of item [i]. *)
Definition own_at {V} (f : npy_file) (u : own_read V) (i : N) : own_reader V :=
  {| og_header := nf_header f; og_type := u;
     og_src := {| cur_data := cur_data (nf_src f); cur_pos := cur_pos (nf_src f) + i * size (h_dtype (nf_header f)) |}; og_index := i |}.

Lemma own_seek {V} c f (u : own_read V) i j : own_opens f -> own_addressable c f -> i <= h_n_records (nf_header f) -> j <= h_n_records (nf_header f) ->
  own_seek_to c j (own_at f u i) = (Ok tt, own_at f u j).
Proof.
  intros (Hn & Hs) (Ha & Hc) Hi Hj. unfold own_seek_to, own_total_len, own_at. cbn [og_header og_index og_src og_type].
  set (n := h_n_records (nf_header f)) in *. set (sz := size (h_dtype (nf_header f))) in *. set (p := cur_pos (nf_src f)) in *.
  replace (n <? j) with false by lia. rewrite Hs. destruct (N.lt_ge_cases n (2 ^ 63)) as [ Hn' | Hn' ].
  - rewrite !as_i64_small by lia. rewrite i64_in by lia. destruct (Z.eqb_spec (Z.of_N j - Z.of_N i) 0) as [ E | E ].
    + assert (j = i) by lia. now subst.
    + assert (Hsz : sz <= n * sz) by nia. rewrite as_i64_small by lia.
      assert (Hb : ((Z.of_N j - Z.of_N i) * Z.of_N sz = Z.of_N (j * sz) - Z.of_N (i * sz))%Z) by lia.
      assert (i * sz <= n * sz) by nia. assert (j * sz <= n * sz) by nia.
      rewrite i64_in by lia. unfold cur_seek. cbn [cur_pos cur_data]. rewrite Hb.
      match goal with |- context [((?a <? 0) || (2 ^ 64 <=? ?a))%Z] => replace (((a <? 0) || (2 ^ 64 <=? a))%Z) with false by lia end.
      do 4 f_equal. lia.
  - assert (sz = 0) by nia. destruct Hc as [ Hc | Hc ]; [ | lia ].
    destruct (as_i64_eq j) as (k1 & E1), (as_i64_eq i) as (k2 & E2).
    assert (Ed : exists k, i64_op c (as_i64 j - as_i64 i) = Ok (Z.of_N j - Z.of_N i - k * 2 ^ 64)%Z).
    { unfold i64_op. rewrite Hc, E1, E2. match goal with |- context [wrap_i64 ?z] => destruct (wrap_i64_eq z) as (k3 & E3) end. rewrite E3.
      destruct (_ && _)%bool; [ exists (k1 - k2)%Z | exists (k1 - k2 + k3)%Z ]; f_equal; lia. }
    destruct Ed as (k & ->). destruct (Z.eqb_spec (Z.of_N j - Z.of_N i - k * 2 ^ 64) 0) as [ E | E ].
    + assert (j = i) by lia. now subst j.
    + replace (as_i64 sz) with 0%Z by (rewrite H; reflexivity). rewrite Z.mul_0_r, i64_in by lia. unfold cur_seek. cbn [cur_pos cur_data].
      rewrite Z.add_0_r. match goal with |- context [((?a <? 0) || (2 ^ 64 <=? ?a))%Z] => replace (((a <? 0) || (2 ^ 64 <=? a))%Z) with false by nia end.
      do 4 f_equal. nia.
Qed.

Lemma own_blocks_nth {V} (u : own_read V) sz blocks items : Forall2 (fun b x => lenN b = sz /\ answers u b x) blocks items ->
  forall i x, nth_error items i = Some x -> exists b before after, List.concat blocks = before ++ b ++ after
    /\ lenN before = N.of_nat i * sz /\ lenN b = sz /\ answers u b x.
Proof.
  induction 1 as [ | b y blocks items (Hl & Hr) H IH ]; intros [ | i ] x Hx; try discriminate Hx.
  - injection Hx as <-. exists b, [], (List.concat blocks). split; [ reflexivity | ]. split; [ rewrite lenN_nil; lia | auto ].
  - cbn [nth_error] in Hx. destruct (IH i x Hx) as (b' & u1 & w & E & Hu & Hb & Hr'). exists b', (b ++ u1), w. cbn [List.concat]. rewrite E, <- app_assoc.
    split; [ reflexivity | ]. split; [ rewrite lenN_app, Hl, Hu; lia | auto ].
Qed.

Lemma own_next_item {V} f (u : own_read V) blocks more items i x :
  cur_rest (nf_src f) = List.concat blocks ++ more -> Forall2 (fun b x => lenN b = size (h_dtype (nf_header f)) /\ answers u b x) blocks items ->
  lenN items = h_n_records (nf_header f) -> nth_error items (N.to_nat i) = Some x ->
  own_next (own_at f u i) = (Some x, own_at f u (i + 1)).
Proof.
  intros Hc Hst Hn Hx. assert (Hi : i < h_n_records (nf_header f)).
  { rewrite <- Hn. unfold lenN. pose proof (proj1 (nth_error_Some items (N.to_nat i))) as H. rewrite Hx in H. specialize (H ltac:(discriminate)). lia. }
  destruct (own_blocks_nth u _ _ _ Hst _ _ Hx) as (b & before & after & E & Hb & Hl & Hr). rewrite N2Nat.id in Hb.
  unfold own_next, own_total_len, own_at. cbn [og_header og_index og_type og_src]. replace (i <? h_n_records (nf_header f)) with true by lia.
  unfold own_call. cbn [cur_data cur_pos].
  assert (Hrest : cur_rest {| cur_data := cur_data (nf_src f); cur_pos := cur_pos (nf_src f) + i * size (h_dtype (nf_header f)) |} = b ++ after ++ more).
  { unfold cur_rest at 1. cbn [cur_data cur_pos]. rewrite N.add_comm, <- dropN_dropN. fold (cur_rest (nf_src f)). rewrite Hc, E, <- !app_assoc. now apply dropN_app. }
  rewrite Hrest, Hr. rewrite N.min_l by (rewrite lenN_app; lia). rewrite Hl. set (sz := size _). set (p := cur_pos _). now replace (p + i * sz + sz) with (p + (i + 1) * sz) by lia.
Qed.

Lemma own_history {V} c (u : own_read V) f items : own_opens f -> own_addressable c f -> own_complete u f items ->
  forall ks i, i <= h_n_records (nf_header f) -> fst (own_perform c ks (own_at f u i)) = listed (c_usize_max c) items ks i.
Proof.
  intros Ho Ha (blocks & more & Hc & Hst & Hn). set (n := h_n_records (nf_header f)) in *.
  assert (Hnx : forall i, i < n -> exists x, nth_error items (N.to_nat i) = Some x /\ own_next (own_at f u i) = (Some x, own_at f u (i + 1))).
  { intros i Hi. destruct (nth_error items (N.to_nat i)) as [ x | ] eqn:E; [ | apply nth_error_None in E; unfold lenN in Hn; lia ].
    exists x. split; [ reflexivity | ]. eapply own_next_item; eauto. }
  induction ks as [ | k ks IH ]; intros i Hi; [ reflexivity | ]. cbn [own_perform listed].
  enough (E : exists j, own_perform_one c k (own_at f u i) = (fst (listed_call (c_usize_max c) items k i), own_at f u j)
     /\ snd (listed_call (c_usize_max c) items k i) = j /\ j <= n).
  { destruct E as (j & -> & Ej & Hj). specialize (IH j Hj). destruct (own_perform c ks (own_at f u j)) as (ss, r').
    destruct (listed_call _ items k i) as (o, p). cbn [fst snd] in *. subst. reflexivity. }
  destruct k as [ | j | j | | ]; cbn [own_perform_one listed_call]; rewrite ?Hn.
  - destruct (N.ltb_spec i n) as [ Hlt | Hge ].
    + destruct (Hnx i Hlt) as (x & -> & ->). exists (i + 1). cbn [fst snd]. repeat split. lia.
    + exists i. unfold own_next, own_total_len. cbn [og_header og_index own_at]. fold n. replace (i <? n) with false by lia. repeat split; auto.
  - destruct (N.leb_spec j n) as [ Hle | Hgt ].
    + rewrite own_seek by auto. exists j. repeat split; auto.
    + unfold own_seek_to, own_total_len. cbn [og_header own_at]. fold n. replace (n <? j) with true by lia. exists i. repeat split; auto.
  - unfold own_read_at, own_total_len. cbn [og_header own_at]. fold (own_at f u i). fold n. destruct (N.ltb_spec j n) as [ Hlt | Hge ].
    + replace (n <=? j) with false by lia. rewrite own_seek by (auto; fold n; lia). destruct (Hnx j Hlt) as (x & -> & ->). exists (j + 1). repeat split. lia.
    + replace (n <=? j) with true by lia. exists i. repeat split; auto.
  - unfold own_len, own_total_len. cbn [og_header og_index own_at]. fold n. replace (i <=? n) with true by lia. exists i. repeat split; auto.
  - unfold own_size_hint, own_len, own_total_len. cbn [og_header og_index own_at]. fold n. replace (i <=? n) with true by lia. cbn [bind].
    destruct (N.ltb_spec (c_usize_max c) (n - i)).
    + replace (n - i <=? c_usize_max c) with false by lia. exists i. repeat split; auto.
    + replace (n - i <=? c_usize_max c) with true by lia. exists i. repeat split; auto.
Qed.

Lemma own_histories {V} c (de : own_deserialize V) src f src' r u items : npy_new c src = (Ok f, src') -> own_data de f = inl r ->
  de (h_dtype (nf_header f)) = inl u -> own_complete u f items -> own_addressable c f ->
  forall ks, fst (own_perform c ks r) = listed (c_usize_max c) items ks 0.
Proof.
  intros Hf Hr Hu Hc Ha ks. destruct (own_data_opens c de src f src' r Hf Hr) as (Ho & u' & Hu' & ->). rewrite Hu in Hu'. injection Hu' as <-.
  rewrite <- (own_history c u f items Ho Ha Hc ks 0) by lia. do 2 f_equal. unfold own_at. f_equal. rewrite N.mul_0_l, N.add_0_r. now destruct (nf_src f).
Qed.

(** * Reading everything, with any reader *)
Lemma own_call_rest {V} (u : own_read V) src x src' : own_call u src = (x, src') -> x = fst (u (cur_rest src)) /\ cur_rest src' = dropN (snd (u (cur_rest src))) (cur_rest src).
Proof.
  unfold own_call. destruct (u (cur_rest src)) as (y, k). intros H. apply pair_inj in H as (<- & <-). split; [ reflexivity | ]. cbn [snd]. unfold cur_rest at 1. cbn [cur_data cur_pos].
  rewrite N.add_comm, <- dropN_dropN. fold (cur_rest src). destruct (N.le_gt_cases k (lenN (cur_rest src))) as [ H | H ].
  - now rewrite N.min_l.
  - rewrite N.min_r by lia. unfold dropN, lenN in *. rewrite !skipn_all2; [ reflexivity | lia | lia ].
Qed.
Lemma own_collected {V} h (u : own_read V) : forall fuel src idx, idx <= h_n_records h -> h_n_records h - idx < N.of_nat fuel ->
  fst (own_collect fuel {| og_header := h; og_type := u; og_src := src; og_index := idx |}) = all_or_error (in_turn u (N.to_nat (h_n_records h - idx)) (cur_rest src)).
Proof.
  induction fuel as [ | fuel IH ]; intros src idx Hi Hf; [ lia | ]. cbn [own_collect]. unfold own_next, own_total_len. cbn [og_header og_index og_type og_src].
  destruct (N.ltb_spec idx (h_n_records h)) as [ Hlt | Hge ].
  - replace (N.to_nat (h_n_records h - idx)) with (S (N.to_nat (h_n_records h - (idx + 1)))) by lia. cbn [in_turn].
    destruct (own_call u src) as (x, src') eqn:E. apply own_call_rest in E as (-> & E). specialize (IH src' (idx + 1) ltac:(lia) ltac:(lia)).
    destruct (u (cur_rest src)) as ([ v | e | ], k); cbn [fst snd] in *; cbn [all_or_error]; auto. rewrite E in IH.
    destruct (own_collect fuel _) as (y, r'). cbn [fst] in *. rewrite IH. destruct (all_or_error _); reflexivity.
  - replace (N.to_nat (h_n_records h - idx)) with 0%nat by lia. reflexivity.
Qed.
Lemma own_whole {V} (de : own_deserialize V) f u : h_pickled (nf_header f) = false -> de (h_dtype (nf_header f)) = inl u ->
  fst (own_into_vec de f) = all_or_error (in_turn u (N.to_nat (h_n_records (nf_header f))) (cur_rest (nf_src f))).
Proof.
  intros Hp Hu. unfold own_into_vec, own_data. rewrite Hp, Hu.
  pose proof (own_collected (nf_header f) u (S (N.to_nat (h_n_records (nf_header f)))) (nf_src f) 0 ltac:(lia) ltac:(lia)) as H. rewrite N.sub_0_r in H.
  destruct (own_collect _ _) as (x, r'). exact H.
Qed.
Lemma in_turn_blocks {V} (u : own_read V) sz blocks items more : Forall2 (fun b x => lenN b = sz /\ answers u b x) blocks items ->
  in_turn u (List.length items) (List.concat blocks ++ more) = items.
Proof.
  induction 1 as [ | b x blocks items (Hl & Hr) H IH ]; [ reflexivity | ]. cbn [List.length in_turn List.concat]. rewrite <- app_assoc, Hr.
  rewrite (dropN_app _ b) by reflexivity. now rewrite IH.
Qed.
Lemma all_or_error_ok {V} (vs : list V) : all_or_error (map Ok vs) = Ok vs.
Proof. induction vs as [ | v vs IH ]; [ reflexivity | ]. cbn [map all_or_error]. now rewrite IH. Qed.
Lemma own_all {V} (de : own_deserialize V) f u items : h_pickled (nf_header f) = false -> de (h_dtype (nf_header f)) = inl u -> own_complete u f items ->
  fst (own_into_vec de f) = all_or_error items.
Proof.
  intros Hp Hu (blocks & more & Hc & Hst & Hn). rewrite (own_whole de f u Hp Hu), Hc. replace (N.to_nat (h_n_records (nf_header f))) with (List.length items) by (unfold lenN in Hn; lia).
  now rewrite (in_turn_blocks u _ blocks items more Hst).
Qed.

(** * Writing *)
Lemma emits_run p b r : emits p b r -> forall s, sk_fuel s = None -> run_own p s = (r, put s b None).
Proof.
  induction 1 as [ r | bs k b r H IH ]; intros s Hs; cbn [run_own].
  - f_equal. rewrite put_nil, <- Hs. now destruct s.
  - rewrite sink_write_none by auto. rewrite IH by reflexivity. now rewrite put_put.
Qed.
Lemma emits_fun p b r : emits p b r -> forall b' r', emits p b' r' -> b = b' /\ r = r'.
Proof.
  induction 1 as [ r | bs k b r H IH ]; intros b' r' H'; inversion H'; subst; auto. match goal with A : emits (k _) _ _ |- _ => destruct (IH _ _ A) as (-> & ->) end. auto.
Qed.
Lemma own_extended {V} c (u : own_write V) : forall vs blocks, Forall2 (fun v b => emits (u v) b (Ok tt)) vs blocks -> forall f s,
  w_num_items f + lenN vs < 2 ^ 64 -> sk_fuel s = None ->
  own_extend c vs {| ow_file := f; ow_type := u |} s = (Ok tt, {| ow_file := with_count f (w_num_items f + lenN vs); ow_type := u |}, put s (List.concat blocks) None).
Proof.
  induction 1 as [ | v b vs blocks He H IH ]; intros f s Hn Hs; cbn [own_extend List.concat].
  - rewrite lenN_nil, N.add_0_r, with_count_id. do 2 f_equal. rewrite put_nil, <- Hs. now destruct s.
  - rewrite lenN_cons in Hn. unfold own_push. cbn [ow_file ow_type]. rewrite u64_add_small by lia. rewrite (emits_run _ _ _ He s Hs).
    fold (with_count f (w_num_items f + 1)). rewrite IH by (cbn [with_count w_num_items put sk_fuel]; auto; lia). rewrite put_put. cbn [with_count w_num_items].
    replace (w_num_items f + lenN (v :: vs)) with (w_num_items f + 1 + lenN vs) by (rewrite lenN_cons; lia). reflexivity.
Qed.

Lemma own_begun {V} c (se : own_serialize V) u d o h sk s dict info : top_level d -> create_dict c d o h = Ok (dict, info) -> header_fits dict ->
  se d = inl u -> sk_fuel s = None -> exists hdr props pad, header_of dict hdr props pad
  /\ own_begin c se d o h sk s = (Ok {| ow_file := {| w_start_pos := if sk then Some (sk_pos s) else None; w_shape_info := info; w_num_items := 0; w_seekable := sk;
       w_writer := unused_writer; w_version_props := props |}; ow_type := u |}, put s hdr None).
Proof.
  intros Ht Hc Hf Hu Hn. unfold own_begin.
  assert (E : (if sk then let@ p := sink_tell in sret (Ok (Some p)) else sret (Ok None)) s = (Ok (if sk then Some (sk_pos s) else None), s)).
  { destruct sk; [ | reflexivity ]. unfold sbind, sink_tell. rewrite tick_none by auto. reflexivity. }
  unfold sbind at 1. rewrite E. unfold sbind.
  destruct (write_header_full c d o h dict info Ht Hc) as (pad & props & hdr & version & _ & _ & Hh & Hok & _). exists hdr, props, pad. split; [ auto | ].
  rewrite (Hok Hf). unfold sbind. rewrite (sink_write_none s hdr Hn). cbn [sret fst snd]. rewrite Hu. reflexivity.
Qed.

Lemma started_growing d o h s hdr props pad : growing h -> header_of (dict_prefix d o ++ suffix o h filler) hdr props pad ->
  exists L, growing_state d o h s 0 [] {| w_start_pos := Some (sk_pos s); w_shape_info := info_of d o h; w_num_items := 0; w_seekable := true;
       w_writer := unused_writer; w_version_props := props |} (put s hdr None) L pad props.
Proof.
  intros Hg Hh. destruct filler_ok as (Hf1 & Hf2). pose proof (suffix_ascii o h filler Hf2) as Hsa.
  destruct (header_swap _ _ (suffix o h filler) _ _ _ Hh eq_refl Hsa Hsa) as (L & E & HL & _). exists L. constructor; cbn [w_seekable w_start_pos w_shape_info w_num_items w_version_props]; auto.
  - intros axis Ha1 Ha2. destruct (header_swap _ _ (suffix o h axis) _ _ _ Hh) as (L' & E' & HL' & Hh'); auto using suffix_ascii.
    { now rewrite !suffix_len. }
    replace L with L'; auto. rewrite E in E'. apply app_inj_lenN in E' as (-> & _); [ auto | lia ].
  - rewrite put_nonempty, E; [ reflexivity | ]. intros ->. destruct L as [ | ? ? ]; [ | discriminate ].
    rewrite lenN_nil in HL. rewrite bytes_before_eq in HL. destruct (vp_u32 props); lia.
  - rewrite E. reflexivity.
Qed.
Lemma grown_more d o h s0 n payload w s L pad props more k : growing_state d o h s0 n payload w s L pad props ->
  growing_state d o h s0 (n + k) (payload ++ more) (with_count w (n + k)) (put s more None) L pad props.
Proof.
  intros [ G1 G2 G3 G4 G5 G6 G7 G8 G9 ]. constructor; cbn [with_count w_seekable w_start_pos w_shape_info w_num_items w_version_props]; auto.
  - unfold put. cbn [sk_data]. rewrite G8, G9.
    replace (match more with [] => _ | _ :: _ => _ end) with (overwrite (overwrite (sk_data s0) (sk_pos s0) (L ++ suffix o h filler ++ repeatN 32 pad ++ [10] ++ payload))
       (sk_pos s0 + lenN (L ++ suffix o h filler ++ repeatN 32 pad ++ [10] ++ payload)) more).
    + rewrite <- overwrite_app. f_equal. app_norm. reflexivity.
    + destruct more; [ | reflexivity ]. apply overwrite_empty. rewrite overwrite_length. lia.
  - cbn [put sk_pos]. rewrite G9. rewrite !lenN_app. lia.
Qed.

Lemma own_written {V} c (se : own_serialize V) u d o h vs blocks s : wf_dtype d -> top_level d -> se d = inl u ->
  Forall2 (fun v b => emits (u v) b (Ok tt)) vs blocks -> lenN vs < 2 ^ 64 -> hint_ok h -> short_header d h -> sk_fuel s = None ->
  match final_shape h o (lenN vs) with
  | Some shape => exists s' hdr, own_write_file c se d o h (output_kind h) vs s = (Ok tt, s')
      /\ placed (sk_data s) (sk_pos s) (hdr ++ List.concat blocks) (sk_data s') /\ file_with d o shape (hdr ++ List.concat blocks) (List.concat blocks)
  | None => exists r s', own_write_file c se d o h (output_kind h) vs s = (r, s') /\ match h with TwoDimensional 0 => r = Panic | _ => exists e, r = Err e end
  end.
Proof.
  intros Hwf Ht Hu Hvs Hn Hh Hsh Hf. destruct (create_short c d o h Hh Hsh) as (dict & info & Hc & Hfit).
  destruct (own_begun c se u d o h (output_kind h) s dict info Ht Hc Hfit Hu Hf) as (hdr & props & pad & Hhd & Hb).
  unfold own_write_file, sbind. rewrite Hb. rewrite (own_extended c u vs blocks Hvs) by (cbn [w_num_items put sk_fuel]; auto; lia). cbn [ow_file w_num_items].
  assert (Hg : growing h \/ exists shape, h = NDimensional shape) by (destruct h; cbn; eauto). destruct Hg as [ Hg | (shape & ->) ].
  - rewrite create_growing in Hc by auto. apply Ok_inj, pair_inj in Hc as (<- & <-).
    replace (output_kind h) with true by (destruct h; [ destruct Hg | | ]; reflexivity).
    destruct (started_growing d o h s hdr props pad Hg Hhd) as (L & Hs1).
    pose proof (grown_more d o h s 0 [] _ _ L pad props (List.concat blocks) (lenN vs) Hs1) as Hs2. cbn [app] in Hs2.
    set (w2 := with_count _ _) in *. set (s2 := put (put s hdr None) _ _) in *. assert (Hf2 : sk_fuel s2 = None) by reflexivity. clearbody s2. rewrite N.add_0_l in Hs2.
    pose proof (finish_state d o h s _ _ w2 s2 L pad props Hg Hn Hs2) as HF.
    destruct (final_shape h o (lenN vs)) as [ shape | ] eqn:Es.
    + destruct HF as (Hshape & Hax & HF). destruct (finish w2 s2) as (r, s') eqn:Ef.
      destruct (HF _ _ eq_refl) as (_ & [ (-> & Hd & Hp) | (_ & (m & Hm) & _) ]); [ | congruence ].
      destruct (shape_with_ok h o (lenN vs) shape Hg Hh Hn Es Hshape) as (Hs64 & Hno & Hcnt).
      set (ax := dec (variable_axis h (lenN vs))) in *. assert (Hax' : lenN ax <= 20) by (apply dec_length_u64; lia).
      pose proof (gs_headers _ _ _ _ _ _ _ _ _ _ _ Hs2 ax Hax' (dec_ascii _)) as Hhdr.
      exists s', (L ++ suffix o h ax ++ repeatN 32 pad ++ [10]). split; [ reflexivity | ]. split.
      * unfold placed. rewrite Hd. unfold overwrite. app_norm. reflexivity.
      * apply opens_with; auto. intros c' rest. rewrite <- app_assoc. subst shape. apply (read_grown c' d o h _ _ _ _ Hwf Ht Hg Hs64 Hhdr).
    + destruct HF as (r & Hr & _ & HF & _). rewrite HF. eexists _, _. split; [ reflexivity | ]. subst h. destruct r; cbn; eauto.
  - destruct Hh as (Hs64 & Hno). cbn [create_dict] in Hc. apply bind_ok in Hc as (n & Hpn & Hc). apply Ok_inj, pair_inj in Hc as (Hd & <-).
    unfold product in Hpn. rewrite product_from_fits in Hpn by (now apply no_overflow_fits). apply Ok_inj in Hpn. rewrite N.mul_1_l in Hpn. subst n.
    cbn [output_kind final_shape]. set (w2 := with_count _ _). set (s2 := put _ _ _).
    destruct (finish w2 s2) as (r, s') eqn:Ef. pose proof (known_finish w2 (count shape) s2 r s' eq_refl Ef) as (_ & K2 & K3).
    change (w_num_items w2) with (lenN vs) in K3. specialize (K2 eq_refl). subst s'.
    destruct (N.eqb_spec (count shape) (lenN vs)) as [ E | E ]; [ | subst r; eexists _, _; split; [ reflexivity | eauto ] ].
    destruct K3 as [ -> | (_ & K3) ]; [ | now elim K3 ]. exists s2, hdr. split; [ reflexivity | ]. split.
    + subst s2. rewrite put_put. apply placed_put. pose proof (header_nonempty _ _ _ _ Hhd). destruct hdr; [ congruence | discriminate ].
    + apply opens_with; auto. intros c' rest. rewrite <- app_assoc. rewrite <- Hd in Hhd. rewrite <- header_dict_bytes in Hhd.
      apply (read_written_nd c' d o shape hdr props pad Hwf Ht Hs64 Hhd).
Qed.

(** * Reading back what was written *)
Lemma own_reads_back {V} c (de : own_deserialize V) u d o shape blocks ws pos data file data' : de d = inl u ->
  (exists n, num_bytes c d = Some n) -> count shape = lenN ws ->
  Forall2 (fun b w => lenN b = size d /\ answers u b (Ok w)) blocks ws -> placed data pos file data' -> file_with d o shape file (List.concat blocks) ->
  exists f src', npy_new c {| cur_data := data'; cur_pos := pos |} = (Ok f, src') /\ h_dtype (nf_header f) = d /\ h_shape (nf_header f) = shape
  /\ h_order (nf_header f) = o /\ own_complete u f (map Ok ws) /\ h_pickled (nf_header f) = false /\ fst (own_into_vec de f) = Ok ws.
Proof.
  intros Hu Hnb Hcnt Hb Hp Hf. assert (Hno : ~ has_object d) by (destruct Hnb as (n & Hn); apply num_bytes_exact in Hn; tauto).
  destruct (Hf c (dropN (pos + lenN file) data) Hnb) as (h & Hrun & Hd & Hs & Ho & Hn). rewrite <- (placed_rest _ _ _ _ Hp) in Hrun.
  destruct (npy_new c {| cur_data := data'; cur_pos := pos |}) as (r, src') eqn:En. pose proof En as En'.
  unfold npy_new in En. unfold run_cursor, cur_rest in En. cbn [cur_data cur_pos] in En. rewrite Hrun in En. apply pair_inj in En as (<- & <-).
  eexists _, _. split; [ reflexivity | ]. cbn [nf_header]. do 3 (split; [ assumption | ]).
  assert (Hfp : h_pickled h = false).
  { apply npy_new_inv in En' as (_ & _ & d' & sh' & o' & Hp'). cbn [nf_header] in Hp'. apply from_parts_ok in Hp' as (E & _ & _ & _ & _ & Hk & _). rewrite Hk.
    destruct (uses_pickled_array d') eqn:Eu; [ | reflexivity ]. apply pickled_exact in Eu. congruence. }
  set (f := {| nf_header := h; nf_src := _ |}).
  assert (Hrest : cur_rest (nf_src f) = List.concat blocks ++ dropN (pos + lenN file) data).
  { unfold f, cur_rest. cbn [nf_src cur_data cur_pos]. apply run_suffix in Hrun as (used & Hu').
    transitivity (dropN (lenN (dropN pos data') - lenN (List.concat blocks ++ dropN (pos + lenN file) data)) (dropN pos data')).
    - rewrite dropN_dropN. f_equal. lia.
    - rewrite Hu' at 2. apply dropN_app. rewrite Hu', lenN_app. lia. }
  assert (Hc : own_complete u f (map Ok ws)).
  { exists blocks, (dropN (pos + lenN file) data). split; [ exact Hrest | ]. cbn [f nf_header]. rewrite Hd. split; [ | rewrite lenN_map; congruence ].
    clear - Hb. induction Hb; cbn [map]; constructor; auto. }
  split; [ exact Hc | ]. split; [ exact Hfp | ]. rewrite (own_all de f u (map Ok ws)); [ apply all_or_error_ok | exact Hfp | | exact Hc ]. cbn [f nf_header]. now rewrite Hd.
Qed.
Lemma final_count h o n shape : hint_ok h -> n < 2 ^ 64 -> final_shape h o n = Some shape -> count shape = n.
Proof.
  intros Hh Hn H. destruct h as [ sh | r | ]; cbn [final_shape] in H.
  - destruct (N.eqb_spec (count sh) n); [ | discriminate ]. now injection H as <-.
  - destruct (N.eqb_spec r 0) as [ | Hr ]; [ discriminate | ]. cbn [orb] in H. destruct (N.eqb_spec (n mod r) 0) as [ E | ]; [ | discriminate ].
    injection H as <-. assert (Hm : n = r * (n / r)) by (pose proof (N.div_mod n r Hr); lia). destruct o; cbn [count fold_right]; lia.
  - injection H as <-. cbn [count fold_right]. lia.
Qed.
Lemma own_round_trip {V W} c c' (se : own_serialize V) (de : own_deserialize W) uw ur d o h shape vs blocks ws s : wf_dtype d -> top_level d ->
  se d = inl uw -> de d = inl ur -> Forall2 (fun v b => emits (uw v) b (Ok tt)) vs blocks -> Forall2 (fun b w => lenN b = size d /\ answers ur b (Ok w)) blocks ws ->
  lenN vs < 2 ^ 64 -> hint_ok h -> short_header d h -> sk_fuel s = None -> final_shape h o (lenN vs) = Some shape -> (exists n, num_bytes c' d = Some n) ->
  exists s', own_write_file c se d o h (output_kind h) vs s = (Ok tt, s')
  /\ exists f src', npy_new c' {| cur_data := sk_data s'; cur_pos := sk_pos s |} = (Ok f, src') /\ h_dtype (nf_header f) = d /\ h_shape (nf_header f) = shape
     /\ h_order (nf_header f) = o /\ own_complete ur f (map Ok ws) /\ fst (own_into_vec de f) = Ok ws.
Proof.
  intros Hwf Ht Hw Hr Hvs Hws Hn Hh Hsh Hf Hfs Hnb. pose proof (own_written c se uw d o h vs blocks s Hwf Ht Hw Hvs Hn Hh Hsh Hf) as H. rewrite Hfs in H.
  destruct H as (s' & hdr & H & Hp & Hfw). exists s'. split; [ exact H | ].
  assert (Hcnt : count shape = lenN ws).
  { rewrite (final_count h o (lenN vs) shape Hh Hn Hfs). unfold lenN. f_equal. clear - Hvs Hws. revert ws Hws. induction Hvs; intros ws Hws; inversion Hws; subst; cbn [List.length]; auto. }
  destruct (own_reads_back c' de ur d o shape blocks ws _ _ _ _ Hr Hnb Hcnt Hws Hp Hfw) as (f & src' & H1 & H2 & H3 & H4 & H5 & _ & H6).
  exists f, src'. repeat (split; [ assumption | ]). assumption.
Qed.

(** * Structs *)
Lemma emits_then p b q b' r : emits p b (Ok tt) -> emits q b' r -> emits (own_then p q) (b ++ b') r.
Proof.
  intros H Hq. remember (Ok tt) as x eqn:E. induction H as [ y | bs k b y H IH ]; cbn [own_then].
  - subst. exact Hq.
  - rewrite <- app_assoc. constructor. auto.
Qed.
Lemma parts_read {V} (ps : list (part V)) : Forall readable_part ps ->
  field_readers (map (fun p => (p_name p, p_de p)) ps) (map p_dtype ps) = inl (map p_reader ps)
  /\ answers (own_read_fields (map p_reader ps)) (List.concat (map p_block ps)) (Ok (map p_value ps)).
Proof.
  induction 1 as [ | p ps (Hd & Ha) H (IH1 & IH2) ]; cbn [map field_readers List.concat]; [ split; [ reflexivity | intros more; reflexivity ] | ].
  rewrite Hd, IH1. split; [ reflexivity | ]. intros more. rewrite <- app_assoc. cbn [own_read_fields]. rewrite Ha. rewrite N.min_l by (rewrite lenN_app; lia).
  rewrite (dropN_app _ (p_block p)) by reflexivity. rewrite IH2. cbn [bind]. now rewrite lenN_app.
Qed.
Lemma extract_parts {V} {X} (g : part V -> X) ps : extract_field_dtypes (map fst (map (fun p => (p_name p, g p)) ps)) (record_of ps) = DOk (map p_dtype ps).
Proof.
  unfold record_of. cbn [extract_field_dtypes]. rewrite !map_map. cbn [fst snd].
  replace (eqb_texts _ _) with true by (symmetry; now apply eqb_texts_eq). reflexivity.
Qed.
Lemma derived_read {V W} (make : list V -> W) ps : Forall readable_part ps ->
  exists u, derived_deserialize make (map (fun p => (p_name p, p_de p)) ps) (record_of ps) = inl u
  /\ answers u (List.concat (map p_block ps)) (Ok (make (map p_value ps))).
Proof.
  intros H. destruct (parts_read ps H) as (H1 & H2). unfold derived_deserialize. rewrite extract_parts, H1. eexists. split; [ reflexivity | ].
  intros more. unfold own_map. now rewrite H2.
Qed.
Lemma parts_written {V} (ps : list (part V)) : Forall writable_part ps ->
  field_writers (map (fun p => (p_name p, p_se p)) ps) (map p_dtype ps) = inl (map p_writer ps)
  /\ emits (own_write_fields (map p_writer ps) (map p_value ps)) (List.concat (map p_block ps)) (Ok tt).
Proof.
  induction 1 as [ | p ps (Hd & Ha) H (IH1 & IH2) ]; cbn [map field_writers own_write_fields List.concat]; [ split; [ reflexivity | constructor ] | ].
  rewrite Hd, IH1. split; [ reflexivity | ]. now apply emits_then.
Qed.
Lemma derived_written {V W} (take : W -> list V) w ps : Forall writable_part ps -> take w = map p_value ps ->
  exists u, derived_serialize take (map (fun p => (p_name p, p_se p)) ps) (record_of ps) = inl u /\ emits (u w) (List.concat (map p_block ps)) (Ok tt).
Proof.
  intros H E. destruct (parts_written ps H) as (H1 & H2). unfold derived_serialize. rewrite extract_parts, H1. eexists. split; [ reflexivity | ]. cbn beta. now rewrite E.
Qed.
(** A struct stops at the first field that fails. *)
Lemma emits_then_stops p b q e : emits p b (Err e) -> emits (own_then p q) b (Err e).
Proof. intros H. remember (Err e) as x eqn:E. induction H as [ y | bs k b y H IH ]; cbn [own_then]; [ subst; constructor | constructor; auto ]. Qed.
Lemma readers_given {V} (ps : list (part V)) : Forall (fun q => p_de q (p_dtype q) = inl (p_reader q)) ps ->
  field_readers (map (fun p => (p_name p, p_de p)) ps) (map p_dtype ps) = inl (map p_reader ps).
Proof. induction 1 as [ | p ps H _ IH ]; cbn [map field_readers]; [ reflexivity | now rewrite H, IH ]. Qed.
Lemma writers_given {V} (ps : list (part V)) : Forall (fun q => p_se q (p_dtype q) = inl (p_writer q)) ps ->
  field_writers (map (fun p => (p_name p, p_se p)) ps) (map p_dtype ps) = inl (map p_writer ps).
Proof. induction 1 as [ | p ps H _ IH ]; cbn [map field_writers]; [ reflexivity | now rewrite H, IH ]. Qed.
Lemma parts_read_stop {V} (ps : list (part V)) (p : part V) us e : Forall readable_part ps -> answers (p_reader p) (p_block p) (Err e) ->
  answers (own_read_fields (map p_reader ps ++ p_reader p :: us)) (List.concat (map p_block ps) ++ p_block p) (Err e).
Proof.
  intros H Hp. induction H as [ | q ps (Hd & Ha) H IH ]; intros more; cbn [map app own_read_fields List.concat].
  - rewrite Hp. f_equal. rewrite lenN_app. lia.
  - rewrite <- !app_assoc. rewrite Ha. rewrite N.min_l by (rewrite lenN_app; lia). rewrite (dropN_app _ (p_block q)) by reflexivity. specialize (IH more). rewrite <- app_assoc in IH. rewrite IH. cbn [bind]. f_equal. rewrite !lenN_app. lia.
Qed.
Lemma parts_written_stop {V} (ps : list (part V)) (p : part V) us vs e : Forall writable_part ps -> emits (p_writer p (p_value p)) (p_block p) (Err e) ->
  emits (own_write_fields (map p_writer ps ++ p_writer p :: us) (map p_value ps ++ p_value p :: vs)) (List.concat (map p_block ps) ++ p_block p) (Err e).
Proof.
  intros H Hp. induction H as [ | q ps (Hd & Ha) H IH ]; cbn [map app own_write_fields List.concat].
  - now apply emits_then_stops.
  - rewrite <- app_assoc. now apply emits_then.
Qed.
Lemma derived_read_stop {V W} (make : list V -> W) ps p qs e : Forall readable_part ps -> Forall (fun q => p_de q (p_dtype q) = inl (p_reader q)) (p :: qs) ->
  answers (p_reader p) (p_block p) (Err e) ->
  exists u, derived_deserialize make (map (fun p => (p_name p, p_de p)) (ps ++ p :: qs)) (record_of (ps ++ p :: qs)) = inl u
  /\ answers u (List.concat (map p_block ps) ++ p_block p) (Err e).
Proof.
  intros H Hq Hp. unfold derived_deserialize. rewrite extract_parts, readers_given.
  - eexists. split; [ reflexivity | ]. intros more. unfold own_map. rewrite map_app. cbn [map]. now rewrite (parts_read_stop ps p (map p_reader qs) e H Hp more).
  - apply Forall_app. split; [ | exact Hq ]. eapply Forall_impl; [ | exact H ]. intros q (A & _). exact A.
Qed.
Lemma derived_written_stop {V W} (take : W -> list V) w ps p qs e : Forall writable_part ps -> Forall (fun q => p_se q (p_dtype q) = inl (p_writer q)) (p :: qs) ->
  emits (p_writer p (p_value p)) (p_block p) (Err e) -> take w = map p_value (ps ++ p :: qs) ->
  exists u, derived_serialize take (map (fun p => (p_name p, p_se p)) (ps ++ p :: qs)) (record_of (ps ++ p :: qs)) = inl u
  /\ emits (u w) (List.concat (map p_block ps) ++ p_block p) (Err e).
Proof.
  intros H Hq Hp E. unfold derived_serialize. rewrite extract_parts, writers_given.
  - eexists. split; [ reflexivity | ]. cbn beta. rewrite E, !map_app. cbn [map]. now apply parts_written_stop.
  - apply Forall_app. split; [ | exact Hq ]. eapply Forall_impl; [ | exact H ]. intros q (A & _). exact A.
Qed.
Lemma derived_field_refused {V W} (make : list V -> W) (take : W -> list V) ps p qs msg :
  (Forall (fun q => p_de q (p_dtype q) = inl (p_reader q)) ps -> p_de p (p_dtype p) = inr msg ->
   derived_deserialize make (map (fun p => (p_name p, p_de p)) (ps ++ p :: qs)) (record_of (ps ++ p :: qs)) = inr msg)
  /\ (Forall (fun q => p_se q (p_dtype q) = inl (p_writer q)) ps -> p_se p (p_dtype p) = inr msg ->
   derived_serialize take (map (fun p => (p_name p, p_se p)) (ps ++ p :: qs)) (record_of (ps ++ p :: qs)) = inr msg).
Proof.
  split; intros H Hp.
  - unfold derived_deserialize. rewrite extract_parts.
    replace (field_readers (map (fun p => (p_name p, p_de p)) (ps ++ p :: qs)) (map p_dtype (ps ++ p :: qs))) with (@inr (list (own_read V)) text msg); [ reflexivity | symmetry ].
    induction H as [ | q ps Hq _ IH ]; cbn [app map field_readers]; [ now rewrite Hp | now rewrite Hq, IH ].
  - unfold derived_serialize. rewrite extract_parts.
    replace (field_writers (map (fun p => (p_name p, p_se p)) (ps ++ p :: qs)) (map p_dtype (ps ++ p :: qs))) with (@inr (list (own_write V)) text msg); [ reflexivity | symmetry ].
    induction H as [ | q ps Hq _ IH ]; cbn [app map field_writers]; [ now rewrite Hp | now rewrite Hq, IH ].
Qed.
Lemma parts_size {V} (ps : list (part V)) : Forall (fun p => lenN (p_block p) = size (p_dtype p)) ps -> lenN (List.concat (map p_block ps)) = size (record_of ps).
Proof.
  unfold record_of. cbn [size]. induction 1 as [ | p ps H Hs IH ]; [ reflexivity | ]. cbn [map List.concat]. rewrite lenN_app, H, IH. reflexivity.
Qed.
Lemma derived_refused {V W} (make : list V -> W) (take : W -> list V) fs gs d : (forall rfs, d = DRecord rfs -> map fst rfs <> map fst fs) -> map fst gs = map fst fs ->
  (exists msg, derived_deserialize make fs d = inr msg) /\ exists msg, derived_serialize take gs d = inr msg.
Proof.
  intros H Hg. assert (E : exists e, extract_field_dtypes (map fst fs) d = DErr e).
  { destruct d as [ t | n d | rfs ]; cbn [extract_field_dtypes]; eauto. specialize (H rfs eq_refl). destruct (eqb_texts (map fst rfs) (map fst fs)) eqn:E; [ | eauto ].
    apply eqb_texts_eq in E. congruence. }
  destruct E as (e & E). unfold derived_deserialize, derived_serialize. rewrite Hg, E. eauto.
Qed.

(** * The types npyz provides *)
Definition as_own (c : cfg) (r : npy_reader) : own_reader val :=
  {| og_header := nr_header r; og_type := provided_read c (nr_type r); og_src := nr_src r; og_index := nr_index r |}.
Lemma provided_call c rd src : own_call (provided_read c rd) src = run_cursor (read_one c rd) src.
Proof.
  unfold own_call, provided_read, run_cursor. destruct (run (read_one c rd) (cur_rest src)) as (x, rest). now rewrite N.min_l by lia.
Qed.
Lemma same_next c r : own_next (as_own c r) = let '(x, r') := nr_next c r in (x, as_own c r').
Proof.
  unfold own_next, nr_next, own_total_len, nr_total_len. cbn [og_header og_index og_type og_src as_own]. destruct (_ <? _); [ | reflexivity ].
  rewrite provided_call. destruct (run_cursor _ _) as (x, s). reflexivity.
Qed.
Lemma same_seek c i r : own_seek_to c i (as_own c r) = let '(x, r') := nr_seek_to c i r in (x, as_own c r').
Proof.
  unfold own_seek_to, nr_seek_to, own_total_len, nr_total_len. cbn [og_header og_index og_type og_src as_own]. destruct (_ <? _); [ reflexivity | ].
  destruct (i64_op c _) as [ z | e | ]; try reflexivity. destruct (z =? 0)%Z; [ reflexivity | ]. destruct (h_item_size _); [ | reflexivity ].
  destruct (i64_op c _) as [ z' | e | ]; try reflexivity. destruct (cur_seek _ _) as ([ [] | e | ], s); reflexivity.
Qed.
Lemma same_read_at c i r : own_read_at c i (as_own c r) = let '(x, r') := nr_read_at c i r in (x, as_own c r').
Proof.
  unfold own_read_at, nr_read_at. change (own_total_len (as_own c r)) with (nr_total_len r). destruct (_ <=? _); [ reflexivity | ]. rewrite same_seek.
  destruct (nr_seek_to c i r) as ([ [] | e | ], r'); try reflexivity. rewrite same_next. destruct (nr_next c r') as ([ x | ], r''); reflexivity.
Qed.
Lemma same_perform c ks : forall r, map tell (fst (own_perform c ks (as_own c r))) = fst (perform c ks r).
Proof.
  induction ks as [ | k ks IH ]; intros r; [ reflexivity | ]. cbn [own_perform perform].
  assert (E : tell (fst (own_perform_one c k (as_own c r))) = fst (perform_one c k r) /\ snd (own_perform_one c k (as_own c r)) = as_own c (snd (perform_one c k r))).
  { destruct k as [ | i | i | | ]; cbn [own_perform_one perform_one].
    - rewrite same_next. destruct (nr_next c r) as ([ [ v | e | ] | ], r'); split; reflexivity.
    - rewrite same_seek. destruct (nr_seek_to c i r) as ([ [] | e | ], r'); split; reflexivity.
    - rewrite same_read_at. destruct (nr_read_at c i r) as ([ v | e | ], r'); split; reflexivity.
    - change (own_len c (as_own c r)) with (nr_len c r). destruct (nr_len c r); split; reflexivity.
    - change (own_size_hint c (as_own c r)) with (nr_size_hint c r). destruct (nr_size_hint c r) as [ (a, b) | | ]; split; reflexivity. }
  destruct (own_perform_one c k (as_own c r)) as (s, r1), (perform_one c k r) as (s', r2). cbn [fst snd] in E. destruct E as (<- & ->).
  specialize (IH r2). destruct (own_perform c ks (as_own c r2)) as (ss, r3), (perform c ks r2) as (ss', r4). cbn [fst map] in *. now rewrite IH.
Qed.
Lemma same_collect c fuel : forall r, own_collect fuel (as_own c r) = let '(x, r') := nr_collect c fuel r in (x, as_own c r').
Proof.
  induction fuel as [ | fuel IH ]; intros r; [ reflexivity | ]. cbn [own_collect nr_collect]. rewrite same_next. destruct (nr_next c r) as ([ [ v | e | ] | ], r'); try reflexivity.
  rewrite IH. destruct (nr_collect c fuel r') as (x, r''). reflexivity.
Qed.
Lemma same_data c t f : own_data (provided_deserialize c t) f = match npy_data c t f with DOk r => inl (as_own c r) | DErr e => inr (dterr_display e) end.
Proof.
  unfold own_data, npy_data, provided_deserialize. destruct (h_pickled _); [ reflexivity | ]. destruct (reader c t _); reflexivity.
Qed.
Lemma same_into_vec c t f : own_into_vec (provided_deserialize c t) f = npy_into_vec c t f.
Proof.
  unfold own_into_vec, npy_into_vec. rewrite same_data. destruct (npy_data c t f) as [ r | e ]; [ | reflexivity ]. rewrite same_collect.
  destruct (nr_collect c _ r) as (x, r'). reflexivity.
Qed.
Lemma same_reading c t f ks : match npy_data c t f with
  | DOk r => exists r', own_data (provided_deserialize c t) f = inl r' /\ map tell (fst (own_perform c ks r')) = fst (perform c ks r)
  | DErr e => own_data (provided_deserialize c t) f = inr (dterr_display e)
  end.
Proof.
  rewrite same_data. destruct (npy_data c t f) as [ r | e ]; [ | reflexivity ]. eexists. split; [ reflexivity | ]. apply same_perform.
Qed.

(** Nothing but the writing of items depends on the type's writer. *)
Definition but_writer (a b : npy_writer) : Prop :=
  w_start_pos a = w_start_pos b /\ w_shape_info a = w_shape_info b /\ w_num_items a = w_num_items b /\ w_seekable a = w_seekable b /\ w_version_props a = w_version_props b.
Lemma finish_but a b s : but_writer a b -> finish a s = finish b s /\ drop_writer a s = drop_writer b s.
Proof.
  intros H. assert (E : forall s, finish_ a s = finish_ b s).
  { destruct a, b. destruct H as (H1 & H2 & H3 & H4 & H5). cbn in H1, H2, H3, H4, H5. subst. reflexivity. }
  assert (D : forall s, drop_writer a s = drop_writer b s) by (intros; unfold drop_writer; now rewrite E).
  split; [ | apply D ]. unfold finish. rewrite E. destruct (finish_ b s) as ([ [] | e | ], s'); rewrite D; reflexivity.
Qed.
Lemma same_extend c tw : forall vs f f' s, but_writer f f' -> w_writer f' = tw ->
  exists g g', but_writer g g' /\ own_extend c vs {| ow_file := f; ow_type := provided_write c tw |} s = (fst (fst (extend c vs f' s)), {| ow_file := g; ow_type := provided_write c tw |}, snd (extend c vs f' s))
  /\ snd (fst (extend c vs f' s)) = g'.
Proof.
  induction vs as [ | v vs IH ]; intros f f' s H Hw; cbn [own_extend extend].
  - exists f, f'. auto.
  - unfold own_push, push. cbn [ow_file ow_type]. pose proof H as (H1 & H2 & H3 & H4 & H5). rewrite H3. destruct (u64_add c (w_num_items f') 1) as [ n | e | ].
    2:{ exists f, f'. auto. }
    2:{ exists f, f'. auto. }
    rewrite Hw. unfold provided_write at 1. destruct (write_one c tw v) as (bs, r) eqn:Ew. cbn [run_own]. unfold sbind, sret.
    destruct (sink_write bs s) as ([ [] | e | ], s'); cbn [run_own bind].
    + destruct r as [ [] | e | ].
      * apply IH; cbn [w_writer]; [ | reflexivity ]. repeat split; auto.
      * eexists _, _. split; [ | split; [ reflexivity | reflexivity ] ]. repeat split; auto.
      * eexists _, _. split; [ | split; [ reflexivity | reflexivity ] ]. repeat split; auto.
    + eexists _, _. split; [ | split; [ reflexivity | reflexivity ] ]. repeat split; auto.
    + eexists _, _. split; [ | split; [ reflexivity | reflexivity ] ]. repeat split; auto.
Qed.
Lemma same_writing c t d o h sk vs s : own_write_file c (provided_serialize c t) d o h sk vs s = write_file c t d o h sk vs s.
Proof.
  unfold own_write_file, write_file. unfold sbind at 1 2. unfold own_begin, begin_. unfold sbind at 1 4.
  destruct ((if sk then let@ p := sink_tell in sret (Ok (Some p)) else sret (Ok None)) s) as ([ st | e | ], s0); try reflexivity.
  unfold sbind at 1 2. destruct (write_header c d o h s0) as ([ (info, props) | e | ], s1); try reflexivity. unfold provided_serialize.
  destruct (writer c t d) as [ tw | e ]; [ | reflexivity ]. unfold sret. cbn [fst snd]. unfold push_all_and_finish.
  set (f := {| w_writer := unused_writer |}). set (f' := {| w_writer := tw |}).
  destruct (same_extend c tw vs f f' s1 ltac:(repeat split) eq_refl) as (g & g' & Hg & -> & Eg). destruct (extend c vs f' s1) as ((r, w'), s2). cbn [fst snd] in *. subst w'.
  cbn [ow_file]. destruct (finish_but g g' s2 Hg) as (-> & ->). destruct r as [ [] | | ]; reflexivity.
Qed.

(** * Vector5 *)
Lemma run_i32s bs more : Forall (fun b => lenN b = 4) bs ->
  run (read_i32s (List.length bs)) (List.concat bs ++ more) = (Ok (map (fun b => XInt (le_i32 b)) bs), more).
Proof.
  induction 1 as [ | b bs Hb H IH ]; [ reflexivity | ]. cbn [List.length read_i32s List.concat map]. rewrite <- app_assoc, run_bind.
  unfold read_exact. cbn [run]. replace (4 <=? lenN (b ++ List.concat bs ++ more)) with true by (rewrite lenN_app; lia).
  rewrite (takeN_app _ b), (dropN_app _ b) by auto. cbn [then_]. rewrite run_bind, IH. reflexivity.
Qed.
Lemma i32_bytes_le z : le_bytes 4 (Z.to_N (z mod 2 ^ 32)) = i32_bytes z.
Proof.
  unfold i32_bytes. cbn [le_bytes map]. pose proof (Z.mod_pos_bound z (2 ^ 32) ltac:(lia)). change (256 ^ Z.of_N 0)%Z with 1%Z. change (256 ^ Z.of_N 1)%Z with 256%Z.
  change (256 ^ Z.of_N 2)%Z with 65536%Z. change (256 ^ Z.of_N 3)%Z with 16777216%Z. change (2 ^ 32)%Z with 4294967296%Z in *.
  assert (forall a b : N, Z.of_N a = Z.of_N b -> a = b) as I by (intros; lia).
  repeat f_equal; apply I; rewrite ?N2Z.inj_mod, ?N2Z.inj_div, !Z2N.id by (try apply Z.mod_pos_bound; lia); change (Z.of_N 256) with 256%Z; Z.div_mod_to_equations; lia.
Qed.
Lemma i32_back z : (- 2 ^ 31 <= z < 2 ^ 31)%Z -> le_i32 (i32_bytes z) = z.
Proof.
  intros Hz. rewrite <- i32_bytes_le. unfold le_i32. rewrite le_value_bytes by (change (N.of_nat 4) with 4; change (256 ^ 4) with 4294967296; lia).
  rewrite Z2N.id by (apply Z.mod_pos_bound; lia). destruct (Z.ltb_spec z 0).
  - replace (z mod 2 ^ 32)%Z with (z + 2 ^ 32)%Z by (apply Z.mod_unique with (-1)%Z; lia). replace (z + 2 ^ 32 <? 2 ^ 31)%Z with false by lia. lia.
  - rewrite Z.mod_small by lia. replace (z <? 2 ^ 31)%Z with true by lia. reflexivity.
Qed.
Lemma vector5_only d : is_vector5 d = true <-> d = vector5_dtype.
Proof.
  split; [ | intros ->; reflexivity ]. intros H. unfold is_vector5 in H. repeat match type of H with (match ?x with _ => _ end) = true => destruct x; try discriminate H end. reflexivity.
Qed.
Lemma i32_len z : lenN (i32_bytes z) = 4.
Proof. reflexivity. Qed.
Lemma vector5_answers zs : lenN zs = 5 -> Forall (fun z => (- 2 ^ 31 <= z < 2 ^ 31)%Z) zs -> answers vector5_read (List.concat (map i32_bytes zs)) (Ok (XSeq (map XInt zs))).
Proof.
  intros Hn Hz more. unfold vector5_read.
  assert (El : List.length (map i32_bytes zs) = 5%nat) by (rewrite map_length; unfold lenN in Hn; lia).
  pose proof (run_i32s (map i32_bytes zs) more ltac:(apply Forall_map, Forall_forall; intros; reflexivity)) as R. match type of R with run (read_i32s ?n) _ = _ => replace n with 5%nat in R by (symmetry; exact El) end. rewrite R. cbn [bind].
  rewrite lenN_app. replace (lenN _ + lenN more - lenN more) with (lenN (List.concat (map i32_bytes zs))) by lia. do 3 f_equal. rewrite map_map.
  apply map_ext_in. intros z Hi. rewrite Forall_forall in Hz. now rewrite i32_back by auto.
Qed.
Lemma vector5_emits zs : lenN zs = 5 -> emits (vector5_write (XSeq (map XInt zs))) (List.concat (map i32_bytes zs)) (Ok tt).
Proof.
  intros Hn. cbn [vector5_write]. assert (G : forall zs, emits (write_i32s (List.length zs) (map XInt zs)) (List.concat (map i32_bytes zs)) (Ok tt)).
  { clear. induction zs as [ | z zs IH ]; [ constructor | ]. cbn [List.length map write_i32s List.concat]. apply emits_then; [ | exact IH ]. rewrite i32_bytes_le.
    rewrite <- (app_nil_r (i32_bytes z)). apply emits_write, emits_return. }
  specialize (G zs). replace (List.length zs) with 5%nat in G by (unfold lenN in Hn; lia). exact G.
Qed.
Lemma vector5_len zs : lenN zs = 5 -> lenN (List.concat (map i32_bytes zs)) = size vector5_dtype.
Proof.
  intros Hn. change (size vector5_dtype) with 20. assert (G : forall zs : list Z, lenN (List.concat (map i32_bytes zs)) = 4 * lenN zs).
  { clear. induction zs as [ | z zs IH ]; [ reflexivity | ]. cbn [map List.concat]. rewrite lenN_app, IH, i32_len. rewrite lenN_cons. lia. }
  rewrite G. lia.
Qed.
Lemma provided_answers c rd b v : run (read_one c rd) b = (Ok v, []) -> answers (provided_read c rd) b (Ok v).
Proof. intros H more. unfold provided_read. rewrite (run_app _ _ _ _ more H). cbn [app]. f_equal. rewrite lenN_app. lia. Qed.
Lemma provided_emits c tw b v : write_one c tw v = (b, Ok tt) -> emits (provided_write c tw v) b (Ok tt).
Proof. intros H. unfold provided_write. rewrite H. rewrite <- (app_nil_r b) at 2. constructor. constructor. Qed.
