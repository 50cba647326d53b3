(** Element counts and strides. *)
From Coq Require FinFun.
From Verif Require Import M_Base M_TypeStr M_Header M_Read S_Shape P_Base.
Open Scope N_scope.

Lemma count_app a b : count (a ++ b) = count a * count b.
Proof. unfold count. induction a; cbn [app fold_right]; [ lia | ]. rewrite IHa. lia. Qed.
Lemma count_rev a : count (rev a) = count a.
Proof. induction a; auto. cbn [rev]. rewrite count_app, IHa. unfold count at 2; cbn [fold_right]. unfold count. cbn [fold_right]. lia. Qed.
Lemma count_cons x l : count (x :: l) = x * count l.
Proof. reflexivity. Qed.

(** * Products *)
Fixpoint fits (acc : N) (l : list N) : Prop :=
  match l with [] => True | x :: l' => acc * x < 2 ^ 64 /\ fits (acc * x) l' end.

Lemma fits_prefix l : forall acc, (forall k, acc * count (firstn k l) < 2 ^ 64) -> fits acc l.
Proof.
  induction l as [ | x l IH ]; intros acc H; cbn [fits]; auto. split.
  - specialize (H 1%nat). cbn in H. lia.
  - apply IH. intros k. specialize (H (S k)). cbn [firstn] in H. rewrite count_cons in H. lia.
Qed.
Lemma prefix_fits l : forall acc, acc < 2 ^ 64 -> fits acc l -> forall k, acc * count (firstn k l) < 2 ^ 64.
Proof.
  induction l as [ | x l IH ]; intros acc Ha H k.
  - rewrite firstn_nil. cbn. lia.
  - destruct H as (H1 & H2). destruct k; [ cbn; lia | ]. cbn [firstn]. rewrite count_cons.
    specialize (IH (acc * x) H1 H2 k). lia.
Qed.

Lemma u64_mul_fits c a b : a * b < 2 ^ 64 -> u64_mul c a b = Ok (a * b).
Proof. intros H. unfold u64_mul. now replace (a * b <? 2 ^ 64) with true by lia. Qed.
Lemma u64_mul_wrap c a b : c_ovf_panics c = false -> u64_mul c a b = Ok ((a * b) mod 2 ^ 64).
Proof.
  intros H. unfold u64_mul. rewrite H. destruct (N.ltb_spec (a * b) (2 ^ 64)); auto. now rewrite N.mod_small.
Qed.

Lemma product_from_fits c l : forall acc, fits acc l -> product_from c acc l = Ok (acc * count l).
Proof.
  induction l as [ | x l IH ]; intros acc H; cbn [product_from].
  - cbn. now rewrite N.mul_1_r.
  - destruct H as (H1 & H2). rewrite u64_mul_fits by auto. cbn [bind]. rewrite IH by auto. rewrite count_cons. f_equal. lia.
Qed.
Lemma product_from_wrap c l : c_ovf_panics c = false -> forall acc, acc < 2 ^ 64 -> product_from c acc l = Ok ((acc * count l) mod 2 ^ 64).
Proof.
  intros Hc. induction l as [ | x l IH ]; intros acc Ha; cbn [product_from].
  - unfold count; cbn [fold_right]. rewrite N.mul_1_r, N.mod_small; auto.
  - rewrite u64_mul_wrap by auto. cbn [bind]. rewrite IH by (apply N.mod_upper_bound; discriminate).
    rewrite count_cons, N.mul_mod_idemp_l by discriminate. now rewrite N.mul_assoc.
Qed.
Lemma product_from_panic c l : c_ovf_panics c = true -> forall acc, ~ fits acc l -> product_from c acc l = Panic.
Proof.
  intros Hc. induction l as [ | x l IH ]; intros acc H; cbn [product_from fits] in *; [ tauto | ].
  destruct (N.lt_ge_cases (acc * x) (2 ^ 64)).
  - rewrite u64_mul_fits by auto. cbn [bind]. apply IH. tauto.
  - unfold u64_mul. replace (acc * x <? 2 ^ 64) with false by lia. now rewrite Hc.
Qed.
Lemma fits_dec l : forall acc, fits acc l \/ ~ fits acc l.
Proof.
  induction l as [ | x l IH ]; intros acc; cbn [fits]; auto.
  destruct (N.lt_ge_cases (acc * x) (2 ^ 64)); [ | right; lia ].
  destruct (IH (acc * x)); tauto.
Qed.

(** * Strides *)
Fixpoint pp (acc : N) (l : list N) : list N :=
  match l with [] => [] | x :: l' => acc :: pp (acc * x) l' end.
Fixpoint sp (l : list N) : list N :=
  match l with [] => [] | _ :: l' => count l' :: sp l' end.

Lemma prefix_products_fits c l : forall acc, fits acc l -> prefix_products_from c acc l = Ok (pp acc l).
Proof.
  induction l as [ | x l IH ]; intros acc H; auto. destruct H as (H1 & H2). cbn [prefix_products_from].
  rewrite u64_mul_fits by auto. cbn [bind]. now rewrite IH.
Qed.
Lemma prefix_products_panic c l : c_ovf_panics c = true -> forall acc, ~ fits acc l -> prefix_products_from c acc l = Panic.
Proof.
  intros Hc. induction l as [ | x l IH ]; intros acc H; cbn [prefix_products_from fits] in *; [ tauto | ].
  destruct (N.lt_ge_cases (acc * x) (2 ^ 64)).
  - rewrite u64_mul_fits by auto. cbn [bind]. rewrite IH; [ reflexivity | tauto ].
  - unfold u64_mul. replace (acc * x <? 2 ^ 64) with false by lia. now rewrite Hc.
Qed.
Lemma prefix_products_wrap c l : c_ovf_panics c = false -> forall acc, exists r, prefix_products_from c acc l = Ok r /\ lenN r = lenN l.
Proof.
  intros Hc. induction l as [ | x l IH ]; intros acc; cbn [prefix_products_from]; [ eauto | ].
  rewrite u64_mul_wrap by auto. cbn [bind]. destruct (IH ((acc * x) mod 2 ^ 64)) as (r & -> & Hr).
  cbn [bind]. eexists; split; eauto. rewrite !lenN_cons. lia.
Qed.

Lemma pp_app l x : forall acc, pp acc (l ++ [x]) = pp acc l ++ [acc * count l].
Proof.
  induction l as [ | y l IH ]; intros acc; cbn [app pp].
  - unfold count; cbn. now rewrite N.mul_1_r.
  - rewrite IH, count_cons. do 3 f_equal. lia.
Qed.
Lemma rev_pp_rev l : rev (pp 1 (rev l)) = sp l.
Proof.
  induction l as [ | x l IH ]; auto. cbn [rev sp]. rewrite pp_app, rev_app_distr. cbn [rev app].
  rewrite IH, count_rev. f_equal. lia.
Qed.
Lemma sp_length l : List.length (sp l) = List.length l.
Proof. induction l; cbn; auto. Qed.
Lemma pp_length l : forall acc, List.length (pp acc l) = List.length l.
Proof. induction l; intros; cbn; auto. Qed.

Lemma no_overflow_fits shape : no_overflow shape -> fits 1 shape /\ fits 1 (rev shape).
Proof.
  intros H. split; apply fits_prefix; intros k; rewrite N.mul_1_l; [ apply H | ].
  rewrite firstn_rev, count_rev. apply H.
Qed.
Lemma fits_no_overflow shape : fits 1 shape -> fits 1 (rev shape) -> no_overflow shape.
Proof.
  intros H1 H2 k. pose proof (prefix_fits shape 1 eq_refl H1 k) as G1.
  pose proof (prefix_fits (rev shape) 1 eq_refl H2 (List.length shape - k)%nat) as G2.
  rewrite firstn_rev, count_rev in G2.
  destruct (Nat.le_gt_cases k (List.length shape)).
  - replace (List.length shape - (List.length shape - k))%nat with k in G2 by lia. lia.
  - rewrite (skipn_all2 shape) by lia. split; [ lia | reflexivity ].
Qed.

Lemma strides_ok c o shape : no_overflow shape ->
  strides c o shape = Ok (match o with OrderC => sp shape | OrderFortran => pp 1 shape end).
Proof.
  intros H. apply no_overflow_fits in H as (H1 & H2). unfold strides, prefix_products. destruct o.
  - rewrite prefix_products_fits by auto. cbn [bind]. now rewrite rev_pp_rev.
  - now apply prefix_products_fits.
Qed.

(** A shape whose element count is positive and fits never overflows. *)
Lemma count_pos_no_overflow shape : 0 < count shape < 2 ^ 64 -> no_overflow shape.
Proof.
  intros H k. pose proof (firstn_skipn k shape) as E. apply (f_equal count) in E. rewrite count_app in E.
  assert (count (firstn k shape) <> 0) by (intros E'; rewrite E' in E; lia).
  assert (count (skipn k shape) <> 0) by (intros E'; rewrite E' in E; lia).
  split; nia.
Qed.

(** * Enumerations *)
Lemma upto_length n : lenN (upto n) = n.
Proof. unfold upto. rewrite lenN_map. unfold lenN. rewrite seq_length. lia. Qed.
Lemma upto_nth n i : i < n -> nth_error (upto n) (N.to_nat i) = Some i.
Proof.
  intros H. unfold upto. rewrite nth_error_map.
  rewrite (nth_error_nth' _ 0%nat) by (rewrite seq_length; lia). rewrite seq_nth by lia. cbn. f_equal. lia.
Qed.
Lemma upto_in n i : In i (upto n) <-> i < n.
Proof.
  unfold upto. rewrite in_map_iff. split.
  - intros (k & <- & Hk). apply in_seq in Hk. lia.
  - intros H. exists (N.to_nat i). split; [ lia | ]. apply in_seq. lia.
Qed.
Lemma upto_nodup n : NoDup (upto n).
Proof. unfold upto. apply FinFun.Injective_map_NoDup; [ intros a b; lia | apply seq_NoDup ]. Qed.

Lemma nth_error_blocks {A B} (f : A -> list B) (L : nat) l : (forall x, In x l -> List.length (f x) = L) ->
  forall i j x, nth_error l i = Some x -> (j < L)%nat -> nth_error (flat_map f l) (L * i + j) = nth_error (f x) j.
Proof.
  induction l as [ | y l IH ]; intros Hl i j x Hi Hj; [ destruct i; discriminate | ].
  cbn [flat_map]. assert (Hy : List.length (f y) = L) by (apply Hl; now left). destruct i.
  - injection Hi as ->. rewrite Nat.mul_0_r. cbn [Nat.add]. rewrite nth_error_app1; auto. lia.
  - rewrite nth_error_app2 by (rewrite Hy; nia). rewrite Hy. replace (L * S i + j - L)%nat with (L * i + j)%nat by nia.
    apply IH; auto. intros z Hz. apply Hl. now right.
Qed.

Lemma flat_map_length_const {A B} (f : A -> list B) L l : (forall x, In x l -> lenN (f x) = L) ->
  lenN (flat_map f l) = L * lenN l.
Proof.
  induction l as [ | y l IH ]; intros H; [ cbn; lia | ]. cbn [flat_map]. rewrite lenN_app, lenN_cons, IH, (H y); [ lia | now left | ].
  intros; apply H; now right.
Qed.

Lemma row_major_length shape : lenN (row_major shape) = count shape.
Proof.
  induction shape as [ | n s IH ]; auto. cbn [row_major]. rewrite (flat_map_length_const _ (count s)).
  - rewrite upto_length, count_cons. lia.
  - intros x _. now rewrite lenN_map.
Qed.
Lemma column_major_length shape : lenN (column_major shape) = count shape.
Proof.
  induction shape as [ | n s IH ]; auto. cbn [column_major]. rewrite (flat_map_length_const _ n).
  - rewrite IH, count_cons. lia.
  - intros x _. rewrite lenN_map. apply upto_length.
Qed.

Lemma row_major_nth shape : forall idx, in_bounds shape idx ->
  nth_error (row_major shape) (N.to_nat (flat_index (sp shape) idx)) = Some idx /\ flat_index (sp shape) idx < count shape.
Proof.
  induction shape as [ | n s IH ]; intros idx H; inversion H as [ | ? i ? is Hi His ]; subst.
  - split; [ reflexivity | ]. cbn. lia.
  - destruct (IH is His) as (H1 & H2). cbn [sp flat_index row_major]. split.
    + replace (N.to_nat (count s * i + flat_index (sp s) is)) with (N.to_nat (count s) * N.to_nat i + N.to_nat (flat_index (sp s) is))%nat by lia.
      rewrite (nth_error_blocks _ (N.to_nat (count s))) with (x := i).
      * rewrite nth_error_map, H1. reflexivity.
      * intros x _. rewrite map_length. pose proof (row_major_length s). unfold lenN in *. lia.
      * now apply upto_nth.
      * lia.
    + rewrite count_cons. nia.
Qed.

Lemma flat_index_scale k a l : forall idx, flat_index (pp (k * a) l) idx = k * flat_index (pp a l) idx.
Proof.
  revert a. induction l as [ | x l IH ]; intros a idx; cbn [pp flat_index]; [ lia | ].
  destruct idx; [ lia | ]. rewrite <- (N.mul_assoc k a x), IH. lia.
Qed.
Lemma column_major_nth shape : forall idx, in_bounds shape idx ->
  nth_error (column_major shape) (N.to_nat (flat_index (pp 1 shape) idx)) = Some idx /\ flat_index (pp 1 shape) idx < count shape.
Proof.
  induction shape as [ | n s IH ]; intros idx H; inversion H as [ | ? i ? is Hi His ]; subst.
  - split; [ reflexivity | ]. cbn. lia.
  - destruct (IH is His) as (H1 & H2). cbn [pp flat_index column_major].
    replace (1 * n) with (n * 1) by lia. rewrite flat_index_scale. split.
    + replace (N.to_nat (1 * i + n * flat_index (pp 1 s) is)) with (N.to_nat n * N.to_nat (flat_index (pp 1 s) is) + N.to_nat i)%nat by lia.
      rewrite (nth_error_blocks _ (N.to_nat n)) with (x := is).
      * rewrite nth_error_map, upto_nth by auto. reflexivity.
      * intros x _. rewrite map_length. pose proof (upto_length n). unfold lenN in *. lia.
      * exact H1.
      * lia.
    + rewrite count_cons. nia.
Qed.

Lemma row_major_in shape : forall idx, In idx (row_major shape) <-> in_bounds shape idx.
Proof.
  induction shape as [ | n s IH ]; intros idx; cbn [row_major].
  - split; [ intros [ <- | [] ]; constructor | intros H; inversion H; now left ].
  - rewrite in_flat_map. split.
    + intros (i & Hi & Hx). apply in_map_iff in Hx as (is & <- & His). apply upto_in in Hi. constructor; auto. now apply IH.
    + intros H. inversion H as [ | ? i ? is Hi His ]; subst. exists i. split; [ now apply upto_in | ]. apply in_map. now apply IH.
Qed.
Lemma column_major_in shape : forall idx, In idx (column_major shape) <-> in_bounds shape idx.
Proof.
  induction shape as [ | n s IH ]; intros idx; cbn [column_major].
  - split; [ intros [ <- | [] ]; constructor | intros H; inversion H; now left ].
  - rewrite in_flat_map. split.
    + intros (is & His & Hx). apply in_map_iff in Hx as (i & <- & Hi). apply upto_in in Hi. constructor; auto. now apply IH.
    + intros H. inversion H as [ | ? i ? is Hi His ]; subst. exists is. split; [ now apply IH | ].
      apply (in_map (fun i => i :: is)). now apply upto_in.
Qed.

Lemma row_major_nth_inv shape : forall p idx, nth_error (row_major shape) p = Some idx -> flat_index (sp shape) idx = N.of_nat p.
Proof.
  induction shape as [ | n s IH ]; intros p idx H; cbn [row_major sp] in *.
  - destruct p as [ | [ | p ] ]; cbn in H; try discriminate. now injection H as <-.
  - assert (Hp : N.of_nat p < n * count s).
    { pose proof (row_major_length (n :: s)) as HL. rewrite count_cons in HL.
      assert (p < List.length (row_major (n :: s)))%nat by (apply nth_error_Some; cbn [row_major]; congruence).
      unfold lenN in HL. lia. }
    assert (HL : (0 < N.to_nat (count s))%nat) by nia.
    set (L := N.to_nat (count s)) in *.
    pose proof (Nat.div_mod p L ltac:(lia)) as Edm. pose proof (Nat.mod_upper_bound p L ltac:(lia)) as Hm.
    assert (Hi : N.of_nat (p / L) < n) by (assert (L * (p / L) < N.to_nat n * L)%nat by nia; nia).
    rewrite Edm in H. rewrite (nth_error_blocks _ L) with (x := N.of_nat (p / L)) in H; auto.
    + rewrite nth_error_map in H. destruct (nth_error (row_major s) (p mod L)) eqn:E; [ | discriminate ].
      injection H as <-. cbn [flat_index]. rewrite (IH _ _ E). unfold L in *. lia.
    + intros x _. rewrite map_length. pose proof (row_major_length s). unfold lenN in *. lia.
    + rewrite <- (Nat2N.id (p / L)) at 1. now apply upto_nth.
Qed.
Lemma column_major_nth_inv shape : forall p idx, nth_error (column_major shape) p = Some idx -> flat_index (pp 1 shape) idx = N.of_nat p.
Proof.
  induction shape as [ | n s IH ]; intros p idx H; cbn [column_major pp] in *.
  - destruct p as [ | [ | p ] ]; cbn in H; try discriminate. now injection H as <-.
  - assert (Hp : N.of_nat p < n * count s).
    { pose proof (column_major_length (n :: s)) as HL. rewrite count_cons in HL.
      assert (p < List.length (column_major (n :: s)))%nat by (apply nth_error_Some; cbn [column_major]; congruence).
      unfold lenN in HL. lia. }
    assert (HL : (0 < N.to_nat n)%nat) by nia.
    set (L := N.to_nat n) in *.
    pose proof (Nat.div_mod p L ltac:(lia)) as Edm. pose proof (Nat.mod_upper_bound p L ltac:(lia)) as Hm.
    assert (Hi : (p / L < List.length (column_major s))%nat).
    { pose proof (column_major_length s) as HC. unfold lenN in HC. assert (L * (p / L) < L * List.length (column_major s))%nat by nia. nia. }
    destruct (nth_error (column_major s) (p / L)) as [ is | ] eqn:E; [ | apply nth_error_None in E; lia ].
    rewrite Edm in H. rewrite (nth_error_blocks _ L) with (x := is) in H; auto.
    + rewrite nth_error_map in H. rewrite <- (Nat2N.id (p mod L)), upto_nth in H by lia. injection H as <-.
      cbn [flat_index]. replace (1 * n) with (n * 1) by lia. rewrite flat_index_scale, (IH _ _ E). unfold L in *. lia.
    + intros x _. rewrite map_length. pose proof (upto_length n). unfold lenN in *. lia.
Qed.

(** * Through [from_parts] *)
Lemma from_parts_ok c d shape o h : from_parts c d shape o = Ok h ->
  h_dtype h = d /\ h_shape h = shape /\ h_order h = o /\ product c shape = Ok (h_n_records h) /\ strides c o shape = Ok (h_strides h)
  /\ h_pickled h = uses_pickled_array d /\ h_item_size h = (if uses_pickled_array d then None else num_bytes c d).
Proof.
  unfold from_parts. intros H. apply bind_ok in H as (n & Hn & H). apply bind_ok in H as (isz & Hi & H).
  apply bind_ok in H as (st & Hs & H). injection H as <-. cbn. repeat split; auto.
  destruct (uses_pickled_array d); [ now injection Hi as <- | ]. destruct (num_bytes c d); [ now injection Hi as <- | discriminate ].
Qed.

Lemma from_parts_intro c d shape o : no_overflow shape -> (uses_pickled_array d = true \/ exists n, num_bytes c d = Some n) ->
  exists h, from_parts c d shape o = Ok h.
Proof.
  intros Hno Hd. unfold from_parts. rewrite strides_ok by auto. unfold product. rewrite product_from_fits by (now apply no_overflow_fits).
  cbn [bind]. destruct (uses_pickled_array d); [ cbn [bind]; eauto | ].
  destruct Hd as [ Hd | (n & Hd) ]; [ discriminate | ]. rewrite Hd. cbn [bind]. eauto.
Qed.

Lemma len_exact c d shape o h : from_parts c d shape o = Ok h -> no_overflow shape -> h_n_records h = count shape.
Proof.
  intros H Hno. apply from_parts_ok in H as (_ & _ & _ & Hn & _).
  unfold product in Hn. rewrite product_from_fits in Hn by (now apply no_overflow_fits). apply (f_equal (fun r => match r with Ok n => n | _ => 0 end)) in Hn. cbv beta iota in Hn. lia.
Qed.
Lemma stride_position c d shape o h : from_parts c d shape o = Ok h -> no_overflow shape ->
  forall idx, in_bounds shape idx ->
  nth_error (match o with OrderC => row_major shape | OrderFortran => column_major shape end)
            (N.to_nat (flat_index (h_strides h) idx)) = Some idx
  /\ flat_index (h_strides h) idx < h_n_records h.
Proof.
  intros H Hno idx Hidx. rewrite (len_exact _ _ _ _ _ H Hno). apply from_parts_ok in H as (_ & _ & _ & _ & Hs & _).
  rewrite strides_ok in Hs by auto. injection Hs as <-.
  destruct o; [ now apply row_major_nth | now apply column_major_nth ].
Qed.

Lemma stride_bijection c d shape o h : from_parts c d shape o = Ok h -> no_overflow shape ->
  forall p, p < h_n_records h -> exists! idx, in_bounds shape idx /\ flat_index (h_strides h) idx = p.
Proof.
  intros H Hno p Hp. pose proof (stride_position c d shape o h H Hno) as Hpos.
  pose proof (len_exact _ _ _ _ _ H Hno) as Hn. apply from_parts_ok in H as (_ & _ & _ & _ & Hs & _).
  rewrite strides_ok in Hs by auto. injection Hs as Hs.
  set (enum := match o with OrderC => row_major shape | OrderFortran => column_major shape end) in *.
  assert (HL : lenN enum = count shape) by (unfold enum; destruct o; [ apply row_major_length | apply column_major_length ]).
  destruct (nth_error enum (N.to_nat p)) as [ idx | ] eqn:E; [ | apply nth_error_None in E; unfold lenN in HL; lia ].
  assert (Hb : in_bounds shape idx).
  { apply nth_error_In in E. unfold enum in E. destruct o; [ now apply row_major_in | now apply column_major_in ]. }
  exists idx. split; [ split; auto | ].
  - rewrite <- Hs. unfold enum in E. destruct o; [ apply row_major_nth_inv in E | apply column_major_nth_inv in E ]; lia.
  - intros idx' (Hb' & Hp'). destruct (Hpos idx' Hb') as (H1 & _). rewrite Hp' in H1. congruence.
Qed.

(** Element counts. *)
Lemma len_wraps c d shape o h : from_parts c d shape o = Ok h -> c_ovf_panics c = false -> h_n_records h = count shape mod 2 ^ 64.
Proof.
  intros H Hc. apply from_parts_ok in H as (_ & _ & _ & Hn & _).
  unfold product in Hn. rewrite product_from_wrap in Hn by (auto; reflexivity). rewrite N.mul_1_l in Hn. now injection Hn.
Qed.
Lemma len_checked c d shape o h : from_parts c d shape o = Ok h -> c_ovf_panics c = true -> h_n_records h = count shape.
Proof.
  intros H Hc. apply from_parts_ok in H as (_ & _ & _ & Hn & _). unfold product in Hn.
  destruct (fits_dec shape 1) as [ Hf | Hf ].
  - rewrite product_from_fits, N.mul_1_l in Hn by auto. now injection Hn.
  - rewrite product_from_panic in Hn by auto. discriminate.
Qed.
Lemma overflow_panics c d shape o : c_ovf_panics c = true ->
  ~ (forall k, count (firstn k shape) < 2 ^ 64) -> from_parts c d shape o = Panic.
Proof.
  intros Hc Hn. unfold from_parts, product. rewrite product_from_panic; auto.
  intros Hf. apply Hn. intros k. pose proof (prefix_fits shape 1 eq_refl Hf k). lia.
Qed.
