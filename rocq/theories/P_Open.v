(** Opening a file, exactly. *)
From Verif Require Import M_Base M_Text M_TypeStr M_PyLit M_IO M_Header M_Read S_Text S_TypeStr S_Python S_DType S_Shape S_Header S_Elem S_Dict S_Open
  P_Base P_Text P_PyLit P_Parse P_Shape P_Elem P_Sizes P_Interp P_Grammar T_Text.
Open Scope N_scope.

(** * Products *)
Lemma prefix_products_exact c l : forall acc, acc < 2 ^ 64 -> (c_ovf_panics c = true -> forall k, acc * count (firstn k l) < 2 ^ 64) ->
  prefix_products_from c acc l = Ok (map (fun k => (acc * count (firstn k l)) mod 2 ^ 64) (seq 0 (List.length l))).
Proof.
  induction l as [ | x l IH ]; intros acc Ha H; [ reflexivity | ]. cbn [prefix_products_from List.length].
  assert (E : u64_mul c acc x = Ok ((acc * x) mod 2 ^ 64)).
  { destruct (c_ovf_panics c) eqn:Ec; [ | now apply u64_mul_wrap ]. specialize (H eq_refl 1%nat). cbn [firstn] in H.
    unfold count in H. cbn [fold_right] in H. rewrite N.mul_1_r in H. rewrite u64_mul_fits by auto. now rewrite N.mod_small. }
  rewrite E. cbn [bind]. rewrite IH.
  - cbn [bind seq map firstn]. f_equal. f_equal.
    + unfold count. cbn [fold_right]. rewrite N.mul_1_r. symmetry. now apply N.mod_small.
    + rewrite <- seq_shift, map_map. apply map_ext. intros k. cbn [firstn]. rewrite count_cons, N.mul_mod_idemp_l by discriminate. f_equal. lia.
  - apply N.mod_upper_bound. discriminate.
  - intros Hc k. specialize (H Hc). pose proof (H (S k)) as Hk. cbn [firstn] in Hk. rewrite count_cons in Hk.
    pose proof (H 1%nat) as H1. cbn [firstn] in H1. rewrite count_cons in H1. unfold count at 1 in H1. cbn [fold_right] in H1. rewrite N.mul_1_r in H1.
    rewrite N.mod_small by auto. lia.
Qed.
Lemma prefix_products_cases c l : c_ovf_panics c = true -> forall acc, acc < 2 ^ 64 ->
  prefix_products_from c acc l = Panic \/ forall k, acc * count (firstn k l) < 2 ^ 64.
Proof.
  intros Hc. induction l as [ | x l IH ]; intros acc Ha.
  - right. intros k. rewrite firstn_nil. unfold count. cbn [fold_right]. lia.
  - cbn [prefix_products_from]. destruct (N.lt_ge_cases (acc * x) (2 ^ 64)) as [ L | L ].
    + rewrite u64_mul_fits by auto. cbn [bind]. destruct (IH (acc * x) L) as [ -> | H ]; [ left; reflexivity | right ].
      intros [ | k ]; cbn [firstn]; [ unfold count; cbn [fold_right]; lia | ]. rewrite count_cons. specialize (H k). lia.
    + left. unfold u64_mul. replace (acc * x <? 2 ^ 64) with false by lia. now rewrite Hc.
Qed.
Lemma prefix_products_panic c l acc : prefix_products_from c acc l = Panic -> acc < 2 ^ 64 -> c_ovf_panics c = true /\ ~ forall k, acc * count (firstn k l) < 2 ^ 64.
Proof.
  intros H Ha. assert (c_ovf_panics c = true).
  { destruct (c_ovf_panics c) eqn:E; auto. rewrite prefix_products_exact in H; auto; [ discriminate | congruence ]. }
  split; auto. intros Hk. rewrite prefix_products_exact in H; auto. discriminate.
Qed.
Lemma prefix_products_no_error c l : forall acc e, prefix_products_from c acc l <> Err e.
Proof.
  induction l as [ | x l IH ]; intros acc e; cbn [prefix_products_from]; [ discriminate | ].
  destruct (u64_mul c acc x) as [ a | e' | ] eqn:E; cbn [bind]; [ | unfold u64_mul in E; destruct (_ <? _), (c_ovf_panics c); discriminate | discriminate ].
  specialize (IH a). destruct (prefix_products_from c a l) as [ r | e' | ]; cbn [bind]; [ discriminate | now specialize (IH e') | discriminate ].
Qed.

Lemma rev_steps M shape :
  rev (map (fun k => count (firstn k (rev shape)) mod M) (seq 0 (List.length shape))) = map (fun k => count (skipn (S k) shape) mod M) (seq 0 (List.length shape)).
Proof.
  induction shape as [ | x s IH ]; [ reflexivity | ]. cbn [List.length]. rewrite seq_S at 1. rewrite map_app, rev_app_distr. cbn [map rev app Nat.add].
  cbn [seq map]. f_equal.
  - f_equal. rewrite firstn_app, rev_length, Nat.sub_diag. cbn [firstn]. rewrite app_nil_r, firstn_all2 by (rewrite rev_length; lia). apply count_rev.
  - rewrite <- seq_shift, map_map. transitivity (map (fun k => count (skipn (S k) s) mod M) (seq 0 (List.length s))); [ | reflexivity ].
    rewrite <- IH. f_equal. apply map_ext_in. intros k Hk. apply in_seq in Hk. f_equal. f_equal.
    rewrite firstn_app, rev_length. replace (k - List.length s)%nat with 0%nat by lia. cbn [firstn]. apply app_nil_r.
Qed.
Lemma rev_fit shape : (forall k, count (firstn k (rev shape)) < 2 ^ 64) <-> trailing_fit shape.
Proof.
  split; intros H k.
  - destruct (Nat.le_gt_cases k (List.length shape)) as [ L | L ].
    + specialize (H (List.length shape - k)%nat). rewrite firstn_rev, count_rev in H. now replace (List.length shape - (List.length shape - k))%nat with k in H by lia.
    + rewrite skipn_all2 by lia. reflexivity.
  - rewrite firstn_rev, count_rev. apply H.
Qed.
Lemma fit_1 (l : list N) : (forall k, 1 * count (firstn k l) < 2 ^ 64) <-> (forall k, count (firstn k l) < 2 ^ 64).
Proof. split; intros H k; specialize (H k); lia. Qed.
Lemma one_small : 1 < 2 ^ 64. Proof. reflexivity. Qed.

Lemma strides_exact c o shape : (c_ovf_panics c = true -> match o with OrderC => trailing_fit shape | OrderFortran => leading_fit shape end) ->
  strides c o shape = Ok (map (fun n => n mod 2 ^ 64) (steps o shape)).
Proof.
  intros H. unfold strides, prefix_products, steps. rewrite map_map. destruct o.
  - rewrite prefix_products_exact; [ | apply one_small | ].
    + cbn [bind]. f_equal. rewrite <- rev_steps, rev_length. f_equal. apply map_ext. intros k. now rewrite N.mul_1_l.
    + intros Hc. apply fit_1, rev_fit. auto.
  - rewrite prefix_products_exact; [ | apply one_small | ].
    + f_equal. apply map_ext. intros k. now rewrite N.mul_1_l.
    + intros Hc. apply fit_1. now apply H.
Qed.
Lemma strides_panic c o shape : strides c o shape = Panic <-> c_ovf_panics c = true /\ ~ match o with OrderC => trailing_fit shape | OrderFortran => leading_fit shape end.
Proof.
  split.
  - unfold strides, prefix_products. destruct o.
    + destruct (prefix_products_from c 1 (rev shape)) as [ r | e | ] eqn:E; [ discriminate | discriminate | ].
      intros _. apply prefix_products_panic in E as (Hc & E); [ | apply one_small ]. rewrite fit_1, rev_fit in E. auto.
    + intros E. apply prefix_products_panic in E as (Hc & E); [ | apply one_small ]. now rewrite fit_1 in E.
  - intros (Hc & H). unfold strides, prefix_products. destruct o.
    + destruct (prefix_products_cases c (rev shape) Hc 1 one_small) as [ -> | F ]; [ reflexivity | ]. rewrite fit_1, rev_fit in F. contradiction.
    + destruct (prefix_products_cases c shape Hc 1 one_small) as [ -> | F ]; [ reflexivity | ]. rewrite fit_1 in F. contradiction.
Qed.
Lemma leading_fits shape : leading_fit shape <-> fits 1 shape.
Proof.
  split; intros H.
  - apply fits_prefix. intros k. rewrite N.mul_1_l. apply H.
  - intros k. pose proof (prefix_fits shape 1 one_small H k) as P. lia.
Qed.
Lemma leading_fit_dec shape : leading_fit shape \/ ~ leading_fit shape.
Proof. rewrite leading_fits. apply fits_dec. Qed.
Lemma trailing_fit_dec shape : trailing_fit shape \/ ~ trailing_fit shape.
Proof.
  rewrite <- rev_fit. change (leading_fit (rev shape) \/ ~ leading_fit (rev shape)). apply leading_fit_dec.
Qed.
Lemma product_exact c shape : (c_ovf_panics c = true -> leading_fit shape) -> product c shape = Ok (count shape mod 2 ^ 64).
Proof.
  intros H. unfold product. destruct (c_ovf_panics c) eqn:Ec.
  - specialize (H eq_refl). pose proof (H (List.length shape)) as Hl. rewrite firstn_all in Hl. rewrite N.mod_small by auto.
    rewrite product_from_fits by (now apply leading_fits). f_equal. lia.
  - rewrite product_from_wrap by (auto; apply one_small). now rewrite N.mul_1_l.
Qed.
Lemma product_panic c shape : product c shape = Panic <-> c_ovf_panics c = true /\ ~ leading_fit shape.
Proof.
  split.
  - intros H. destruct (c_ovf_panics c) eqn:Ec; [ | rewrite product_exact in H; [ discriminate | congruence ] ].
    split; auto. intros Hl. rewrite product_exact in H; auto. discriminate.
  - intros (Hc & H). unfold product. apply product_from_panic; auto. now rewrite <- leading_fits.
Qed.

(** * [from_parts] *)
Lemma object_dec d : has_object d \/ ~ has_object d.
Proof. rewrite <- pickled_exact. destruct (uses_pickled_array d); auto. Qed.
Lemma item_size_ok c d (r : res (option N)) :
  r = (if uses_pickled_array d then Ok None else match num_bytes c d with Some b => Ok (Some b) | None => Err (EData (lit "dtype is larger than usize!")) end) ->
  (has_object d /\ r = Ok None) \/ (~ has_object d /\ sizes_fit (c_usize_max c) d /\ r = Ok (Some (size d)))
  \/ (~ countable c d /\ exists e, r = Err e).
Proof.
  intros ->. destruct (uses_pickled_array d) eqn:E; [ left; split; auto; now apply pickled_exact | right ].
  assert (No : ~ has_object d) by (rewrite <- pickled_exact; congruence).
  destruct (num_bytes c d) as [ b | ] eqn:Eb; [ left | right ].
  - apply num_bytes_exact in Eb as (_ & Hf & ->). auto.
  - split; [ | eauto ]. intros [ H | H ]; [ contradiction | ]. assert (num_bytes c d = Some (size d)) by (apply num_bytes_exact; auto). congruence.
Qed.
Lemma nheader_eq h h' : h_dtype h = h_dtype h' -> h_shape h = h_shape h' -> h_strides h = h_strides h' -> h_order h = h_order h' -> h_n_records h = h_n_records h' ->
  h_item_size h = h_item_size h' -> h_pickled h = h_pickled h' -> h = h'.
Proof. destruct h, h'. cbn. intros. now subst. Qed.
Lemma numbers_unique c d shape o h h' : numbers c d shape o h -> numbers c d shape o h' -> h = h'.
Proof.
  intros (A1 & A2 & A3 & A4 & A5 & A6 & A7 & A8) (B1 & B2 & B3 & B4 & B5 & B6 & B7 & B8).
  apply nheader_eq; try congruence.
  - destruct (object_dec d) as [ H | H ]; [ now rewrite A7, B7 | now rewrite A8, B8 ].
  - destruct (h_pickled h), (h_pickled h'); intuition congruence.
Qed.
Lemma from_parts_numbers c d shape o : no_overflow_met c shape o -> countable c d -> exists h, from_parts c d shape o = Ok h /\ numbers c d shape o h.
Proof.
  intros Hn Hd. unfold from_parts. rewrite product_exact by (intros Hc; now apply Hn). cbn [bind].
  destruct (item_size_ok c d _ eq_refl) as [ (Ho & E) | [ (Ho & Hf & E) | (Hno & _) ] ]; [ | | contradiction ]; rewrite E; cbn [bind].
  all: rewrite strides_exact by (intros Hc; destruct (Hn Hc); destruct o; auto); cbn [bind]; eexists; split; [ reflexivity | ].
  all: unfold numbers; cbn [h_dtype h_shape h_order h_n_records h_strides h_pickled h_item_size]; repeat (split; [ reflexivity | ]).
  all: split; [ apply pickled_exact | split; [ tauto | tauto ] ].
Qed.
Lemma from_parts_exact c d shape o h : from_parts c d shape o = Ok h <-> no_overflow_met c shape o /\ countable c d /\ numbers c d shape o h.
Proof.
  split.
  - intros H. assert (Hn : no_overflow_met c shape o /\ countable c d).
    { unfold from_parts in H. apply bind_ok in H as (n & Hp & H). apply bind_ok in H as (i & Hi & H). apply bind_ok in H as (s & Hs & _). split.
      - intros Hc. split.
        + destruct (leading_fit_dec shape) as [ | F ]; auto. rewrite (proj2 (product_panic c shape)) in Hp by auto. discriminate.
        + intros ->. destruct (trailing_fit_dec shape) as [ | F ]; auto. rewrite (proj2 (strides_panic c OrderC shape)) in Hs by auto. discriminate.
      - destruct (item_size_ok c d _ eq_refl) as [ (Ho & E) | [ (Ho & Hf & E) | (Hno & e & E) ] ]; [ now left | now right | ]. rewrite E in Hi. discriminate. }
    destruct Hn as (Hn & Hd). destruct (from_parts_numbers c d shape o Hn Hd) as (h' & E & Hh). rewrite H in E. apply Ok_inj in E as ->. auto.
  - intros (Hn & Hd & Hh). destruct (from_parts_numbers c d shape o Hn Hd) as (h' & E & Hh'). rewrite E. f_equal. eapply numbers_unique; eauto.
Qed.
Lemma from_parts_panic_exact c d shape o : from_parts c d shape o = Panic <-> overflow_panic c d shape o.
Proof.
  unfold overflow_panic. split.
  - intros H. unfold from_parts in H. destruct (product c shape) as [ n | e | ] eqn:Ep; cbn [bind] in H.
    + destruct (item_size_ok c d _ eq_refl) as [ (Ho & E) | [ (Ho & Hf & E) | (Hno & e & E) ] ]; rewrite E in H; cbn [bind] in H; [ | | discriminate ].
      all: destruct (strides c o shape) as [ s | e | ] eqn:Es; cbn [bind] in H; [ discriminate | discriminate | ].
      all: apply strides_panic in Es as (Hc & Hs); split; auto; right; split; [ (now left) || (now right) | ].
      all: destruct o; [ auto | ]; exfalso; apply Hs; destruct (leading_fit_dec shape) as [ | F ]; auto; rewrite (proj2 (product_panic c shape)) in Ep by auto; discriminate.
    + discriminate.
    + apply product_panic in Ep as (? & ?). auto.
  - intros (Hc & [ H | (Hd & -> & H) ]).
    + unfold from_parts. rewrite (proj2 (product_panic c shape)) by auto. reflexivity.
    + destruct (leading_fit_dec shape) as [ F | F ]; [ | unfold from_parts; rewrite (proj2 (product_panic c shape)) by auto; reflexivity ].
      unfold from_parts. rewrite product_exact by auto. cbn [bind].
      destruct (item_size_ok c d _ eq_refl) as [ (Ho & E) | [ (Ho & Hf & E) | (Hno & e & E) ] ]; [ | | contradiction ]; rewrite E; cbn [bind].
      all: rewrite (proj2 (strides_panic c OrderC shape)) by auto; reflexivity.
Qed.

(** * Text *)
(** No literal ends with a newline. *)
Definition tail_end (s : text) : Prop := exists p c, s = p ++ [c] /\ c <> 10.
Lemma tail_end_app a b : tail_end b -> tail_end (a ++ b).
Proof. intros (p & c & -> & H). exists (a ++ p), c. now rewrite app_assoc. Qed.
Lemma tail_end_cons c b : tail_end b -> tail_end (c :: b).
Proof. apply (tail_end_app [c]). Qed.
Lemma tail_end_1 c : c <> 10 -> tail_end [c].
Proof. exists [], c. auto. Qed.
Lemma digits_end (P : N -> Prop) src ds d : (forall c, P c -> c <> 10) -> d <> 10 -> more_digits P src ds -> tail_end (d :: src).
Proof.
  intros HP Hd H. revert d Hd. induction H as [ | d' src ds Hd' _ IH | d' src ds Hd' _ IH ]; intros d Hd.
  - now apply tail_end_1.
  - apply tail_end_cons. auto.
  - apply tail_end_cons, tail_end_cons. auto.
Qed.
Lemma signed_end s z : signed_rest s z -> tail_end s.
Proof.
  induction 1 as [ src n H | | | ]; try (now apply tail_end_cons).
  destruct H as [ src ds H | d src ds Hr H ]; eapply digits_end; eauto; cbn; lia.
Qed.
Lemma string_end_tail long q s v : quote q -> string_rest long q s v -> tail_end s.
Proof.
  intros Hq. induction 1 as [ | item xs rest s _ _ IH _ _ ]; [ | now apply tail_end_app ].
  assert (q <> 10) by (destruct Hq; subst; discriminate). destruct long; [ exists [q; q], q | exists [], q ]; auto.
Qed.
Lemma literal_tail :
  (forall s v, literal s v -> tail_end s) /\ (forall close s vs, sequence close s vs -> close <> 10 -> tail_end s) /\ (forall s vs, entries s vs -> tail_end s).
Proof.
  apply (literal_all (fun s v _ => tail_end s) (fun close s vs _ => close <> 10 -> tail_end s) (fun s vs _ => tail_end s)); intros; repeat apply tail_end_app; auto.
  - destruct s0 as (p & long & q & S & -> & _ & Hq & HS). apply tail_end_app, tail_end_app. eapply string_end_tail; eauto.
  - destruct i as (H & _). eapply signed_end; eauto.
  - exists (lit "Tru"), 101. split; [ reflexivity | discriminate ].
  - exists (lit "Fals"), 101. split; [ reflexivity | discriminate ].
  - exists (lit "Non"), 101. split; [ reflexivity | discriminate ].
  - exists [], 41. split; [ reflexivity | discriminate ].
  - apply H0. discriminate.
  - apply H. discriminate.
  - apply H. discriminate.
  - now apply tail_end_1.
  - now apply tail_end_1.
  - exists [], 125. split; [ reflexivity | discriminate ].
  - exists [], 125. split; [ reflexivity | discriminate ].
Qed.
Lemma python_tail src v : python_literal src v -> tail_end src.
Proof.
  intros (b1 & s & b2 & -> & _ & H2 & H). apply tail_end_app. apply (proj1 literal_tail) in H.
  destruct b2 as [ | c b2 _ ] using rev_ind; [ now rewrite app_nil_r | ]. apply tail_end_app, tail_end_app, tail_end_1.
  apply Forall_app in H2 as (_ & H2). apply Forall_cons_iff in H2 as (H2 & _). unfold blank in H2. lia.
Qed.
Lemma octets_end c : c <> 10 -> exists p b, utf8_octets c = p ++ [b] /\ b <> 10.
Proof.
  intros H. unfold utf8_octets. destruct (c <? 0x80); [ now exists [], c | ]. destruct (c <? 0x800); [ eexists [_], _ | destruct (c <? 0x10000); [ eexists [_; _], _ | eexists [_; _; _], _ ] ].
  all: split; [ reflexivity | lia ].
Qed.
Lemma utf8_end s : tail_end s -> exists p b, utf8_string s = p ++ [b] /\ b <> 10.
Proof.
  intros (p & c & -> & H). unfold utf8_string. rewrite flat_map_app. cbn [flat_map]. rewrite app_nil_r.
  destruct (octets_end c H) as (p' & b & -> & Hb). exists (flat_map utf8_octets p ++ p'), b. now rewrite app_assoc.
Qed.
Lemma strip_newline_end p : strip_newline (p ++ [10]) = p.
Proof. unfold strip_newline. rewrite rev_app_distr. cbn [rev app]. change (10 =? 10) with true. cbv iota. apply rev_involutive. Qed.
Lemma strip_newline_other p b : b <> 10 -> strip_newline (p ++ [b]) = p ++ [b].
Proof. intros H. unfold strip_newline. rewrite rev_app_distr. cbn [rev app]. now replace (b =? 10) with false by lia. Qed.
Lemma strip_newline_cases bs : strip_newline bs = bs \/ bs = strip_newline bs ++ [10].
Proof.
  destruct bs as [ | b p _ ] using rev_ind; [ now left | ]. destruct (N.eq_dec b 10) as [ -> | H ]; [ rewrite strip_newline_end; now right | left; now apply strip_newline_other ].
Qed.
Lemma header_text_exact txt v : Forall (fun b => b < 256) txt -> parse_header_text txt = Ok v <-> header_text txt v.
Proof.
  intros Hb. unfold parse_header_text. split.
  - destruct (from_utf8 (strip_newline txt)) as [ src | ] eqn:E; [ | discriminate ]. destruct (parse_literal src) as [ w | ] eqn:Ep; [ | discriminate ].
    intros [= ->]. apply parse_sound in Ep. assert (Hb' : Forall (fun b => b < 256) (strip_newline txt)).
    { destruct (strip_newline_cases txt) as [ -> | H ]; auto. rewrite H in Hb. now apply Forall_app in Hb. }
    apply utf8_exact in E as (Hs & E); auto. exists src. split; auto. split; auto. rewrite E. destruct (strip_newline_cases txt) as [ -> | H ]; auto.
  - intros (src & Hs & Ht & Hp). assert (strip_newline txt = utf8_string src) as ->.
    { destruct Ht as [ -> | -> ]; [ | apply strip_newline_end ]. destruct (utf8_end src (python_tail src v Hp)) as (p & b & -> & H). now apply strip_newline_other. }
    change utf8_string with utf8. rewrite from_utf8_utf8 by exact Hs. now rewrite (parse_complete src v Hp).
Qed.

(** * Opening *)
Lemma preamble_bytes pre txt rest : Forall (fun b => b < 256) (pre ++ rest) -> preamble_of pre txt -> Forall (fun b => b < 256) txt.
Proof.
  intros H (a & len & -> & _). apply Forall_app in H as (H & _). rewrite !app_comm_cons, app_assoc, app_assoc in H. now apply Forall_app in H as (_ & H).
Qed.
Lemma open_exact c input h rest : Forall (fun b => b < 256) input ->
  run (read_and_interpret c) input = (Ok h, rest) <->
  exists pre txt v d shape o, input = pre ++ rest /\ preamble_of pre txt /\ header_text txt v /\ header_says v d shape o
    /\ no_overflow_met c shape o /\ countable c d /\ numbers c d shape o h.
Proof.
  intros Hb. rewrite preamble_exact. split.
  - intros (pre & txt & v & d & shape & o & -> & Hp & Ht & Hs & Hf). exists pre, txt, v, d, shape, o. rewrite <- from_parts_exact.
    repeat (split; [ solve [ auto ] | ]). split; [ | auto ]. apply header_text_exact; auto. eapply preamble_bytes; eauto.
  - intros (pre & txt & v & d & shape & o & -> & Hp & Ht & Hs & Hf). exists pre, txt, v, d, shape, o. rewrite <- from_parts_exact in Hf.
    repeat (split; [ solve [ auto ] | ]). split; [ | auto ]. apply header_text_exact; auto. eapply preamble_bytes; eauto.
Qed.
Lemma open_panic_exact c input : Forall (fun b => b < 256) input ->
  fst (run (read_and_interpret c) input) = Panic <->
  exists pre txt v d shape o rest, input = pre ++ rest /\ preamble_of pre txt /\ header_text txt v /\ header_says v d shape o /\ overflow_panic c d shape o.
Proof.
  intros Hb. rewrite preamble_panic_exact.
  split; intros (pre & txt & v & d & shape & o & rest & -> & Hp & Ht & Hs & Hf); exists pre, txt, v, d, shape, o, rest; apply from_parts_panic_exact in Hf;
    repeat (split; [ solve [ auto ] | ]); (split; [ apply header_text_exact; auto; eapply preamble_bytes; eauto | auto ]).
Qed.

Lemma utf8_bytes s : Forall (fun ch => scalar_value ch = true) s -> Forall (fun b => b < 256) (utf8_string s).
Proof.
  intros H. unfold utf8_string. apply Forall_flat_map. eapply Forall_impl; [ | exact H ]. intros ch Hc. unfold scalar_value in Hc. unfold utf8_octets.
  destruct (N.ltb_spec ch 0x80); [ | destruct (N.ltb_spec ch 0x800); [ | destruct (N.ltb_spec ch 0x10000) ] ]; repeat constructor; try lia.
Qed.
Lemma utf8_string_inj a b : Forall (fun ch => scalar_value ch = true) a -> Forall (fun ch => scalar_value ch = true) b -> utf8_string a = utf8_string b -> a = b.
Proof.
  intros Ha Hb E. pose proof (from_utf8_utf8 a Ha) as A. pose proof (from_utf8_utf8 b Hb) as B. change utf8 with utf8_string in *. rewrite E, B in A. now injection A.
Qed.
Lemma dtype_parse_exact src d : Forall (fun ch => scalar_value ch = true) src ->
  dtype_parse src = Ok d <-> exists lit v, (src = lit \/ src = lit ++ [10]) /\ python_literal lit v /\ describes v d.
Proof.
  intros Hs. unfold dtype_parse. change utf8 with utf8_string. pose proof (utf8_bytes src Hs) as Hb. split.
  - intros H. apply bind_ok in H as (v & Hv & H). apply descr_exact in H. apply header_text_exact in Hv as (l & Hl & E & Hp); auto.
    exists l, v. split; [ | auto ]. destruct E as [ E | E ]; [ left | right ].
    + now apply utf8_string_inj.
    + apply utf8_string_inj; auto; [ apply Forall_app; auto | ]. rewrite E. unfold utf8_string. rewrite flat_map_app. reflexivity.
  - intros (l & v & E & Hp & Hd). assert (header_text (utf8_string src) v) as Ht.
    { exists l. destruct E as [ -> | -> ]; [ auto | ]. apply Forall_app in Hs as (Hl & _). split; auto. split; auto. right. unfold utf8_string. now rewrite flat_map_app. }
    apply header_text_exact in Ht; auto. rewrite Ht. cbn [bind]. now apply descr_exact.
Qed.
