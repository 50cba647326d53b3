(** Proofs for C83. *)
From Verif Require Import M_Base M_Text M_TypeStr M_PyLit M_IO M_Header M_Read M_Serialize M_NpyReader M_Write M_Npz M_Sparse.
From Verif Require Import S_Text S_TypeStr S_DType S_Shape S_Header S_Elem S_Strings S_Reader S_Write S_DText S_File S_Outcome S_Npz S_Sparse S_SparseOut S_Stopped.
From Verif Require Import P_Base P_Text P_TypeStr P_PyLit P_Header P_IO P_Sink P_Shape P_WriteHeader P_Number P_Elem P_ReadOne P_WriteOne P_Codec P_Sizes P_Strings P_Parse P_Default P_ElemT P_Reader P_Array P_Writer P_WriteFile P_Session P_Whole P_Npz P_Sparse T_Text P_DText P_File P_Bytes P_Crash P_Counted P_SparseOut.
Require Import ZifyBool ZifyNat ZifyN.
Open Scope N_scope.

(** * Programs that only append *)
Definition fuelled (s : sink) (n : N) : sink := {| sk_data := sk_data s; sk_pos := sk_pos s; sk_fuel := Some n |}.
(** [e]: how many operations without data there are at most. *)
Definition cuts {A} (e : N) (bad : A -> Prop) (k : sink -> A * sink) : Prop :=
  forall s, sk_fuel s = None -> exists x w, k s = (x, put s w None) /\
  forall n, (exists m, n <= m + lenN w + e /\ k (fuelled s n) = (x, put s w (Some m)))
    \/ exists x' p q m, n < lenN w + e /\ bad x' /\ w = p ++ q /\ q <> [] /\ k (fuelled s n) = (x', put s p (Some m)).
Definition sunk {A} (r : res A) : Prop := r = Err ESink.
Lemma put_none s : sk_fuel s = None -> put s [] None = s.
Proof. intros H. rewrite put_nil. destruct s. cbn in *. now subst. Qed.
Lemma fuelled_put s n w f : put (fuelled s n) w f = put s w f.
Proof. reflexivity. Qed.
Lemma put_fuelled s w f n : fuelled (put s w f) n = put s w (Some n).
Proof. reflexivity. Qed.
Lemma fuelled_nil s n : put s [] (Some n) = fuelled s n.
Proof. rewrite put_nil. reflexivity. Qed.

Lemma cuts_ret {A} (bad : A -> Prop) (x : A) e : cuts e bad (fun s => (x, s)).
Proof.
  intros s Hs. exists x, []. split; [ now rewrite put_none | ]. intros n. left. exists n. rewrite fuelled_nil. split; [ lia | reflexivity ].
Qed.
Lemma cuts_write bs : cuts 0 sunk (sink_write bs).
Proof.
  intros s Hs. exists (Ok tt), bs. split; [ now apply sink_write_none | ]. intros n. rewrite (sink_write_some (fuelled s n) bs n eq_refl). rewrite !fuelled_put.
  destruct (N.leb_spec (lenN bs) n) as [ H | H ]; [ left; exists (n - lenN bs); split; [ lia | reflexivity ] | right ].
  exists (Err ESink), (takeN n bs), (dropN n bs), 0. split; [ lia | ]. split; [ reflexivity | ].
  split; [ symmetry; apply takeN_dropN | ]. split; [ | reflexivity ]. intros E. pose proof (f_equal lenN E) as E'. rewrite lenN_dropN in E'. change (lenN []) with 0 in E'. lia.
Qed.
Lemma cuts_bind {A B} e (m : sink -> res A * sink) (k : A -> sink -> res B * sink) : cuts 0 sunk m -> (forall a s s', m s = (Ok a, s') -> cuts e sunk (k a)) -> cuts e sunk (sbind m k).
Proof.
  intros Hm Hk s Hs. destruct (Hm s Hs) as (x & w & E & HF). unfold sbind. rewrite E. destruct x as [ a | er | ].
  - destruct (Hk a _ _ E (put s w None) eq_refl) as (y & w2 & E2 & HF2). exists y, (w ++ w2). rewrite E2, put_put, lenN_app. split; [ reflexivity | ]. intros n.
    destruct (HF n) as [ (m' & L & E') | (x' & p & q & m' & L & -> & -> & Hq & E') ]; rewrite E'.
    + destruct (HF2 m') as [ (m2 & L2 & E2') | (x' & p & q & m2 & L2 & Hb & -> & Hq & E2') ]; rewrite put_fuelled in E2'; rewrite E2', put_put; [ left; exists m2; split; [ lia | reflexivity ] | ].
      right. exists x', (w ++ p), q, m2. rewrite app_assoc. split; [ lia | auto ].
    + right. exists (Err ESink), p, (q ++ w2), m'. rewrite app_assoc. split; [ lia | ]. repeat apply conj; auto; [ reflexivity | ]. intros H. apply app_eq_nil in H as (H & _). auto.
  - exists (Err er), w. split; [ reflexivity | ]. intros n. destruct (HF n) as [ (m' & L & E') | (x' & p & q & m' & L & -> & -> & Hq & E') ]; rewrite E'; [ left; exists m'; split; [ lia | reflexivity ] | ].
    right. exists (Err ESink), p, q, m'. split; [ lia | ]. repeat apply conj; auto; reflexivity.
  - exists Panic, w. split; [ reflexivity | ]. intros n. destruct (HF n) as [ (m' & L & E') | (x' & p & q & m' & L & -> & -> & Hq & E') ]; rewrite E'; [ left; exists m'; split; [ lia | reflexivity ] | ].
    right. exists (Err ESink), p, q, m'. split; [ lia | ]. repeat apply conj; auto; reflexivity.
Qed.
Lemma cuts_header c d o h : cuts 0 sunk (write_header c d o h).
Proof.
  unfold write_header. destruct d as [ t | n d | fs ]; [ | apply cuts_ret | ].
  all: apply cuts_bind; [ apply cuts_ret | ]; intros (dict, info) s s' _; apply cuts_bind; [ apply cuts_ret | ]; intros ((txt, version), props) s2 s2' _;
    repeat first [ apply cuts_ret | apply cuts_write | apply cuts_bind; [ | intros ] | match goal with |- cuts _ _ (if ?b then _ else _) => destruct b end ].
Qed.
Lemma cuts_begin c t d o shape : cuts 0 sunk (begin_nd c t d o shape).
Proof.
  unfold begin_nd, begin_. apply cuts_bind; [ apply cuts_ret | ]. intros. apply cuts_bind; [ apply cuts_header | ]. intros. destruct (writer c t d); apply cuts_ret.
Qed.
Lemma cuts_push c v w : cuts 0 (fun x => sunk (fst x)) (push c v w).
Proof.
  intros s Hs. unfold push. destruct (u64_add c (w_num_items w) 1) as [ k | e | ]; [ | now apply (cuts_ret _ (Err e, w)) | now apply (cuts_ret _ (Panic, w)) ].
  destruct (write_one c (w_writer w) v) as (bs, r).
  assert (K : cuts 0 sunk (let@ _u := sink_write bs in sret r)) by (apply cuts_bind; [ apply cuts_write | intros; apply cuts_ret ]).
  destruct (K s Hs) as (x & w1 & E & HF). rewrite E. eexists (x, _), w1. split; [ reflexivity | ]. intros n.
  destruct (HF n) as [ (m & L & E') | (x' & p & q & m & L & Hb & Hw & Hq & E') ]; rewrite E'; [ left; eauto | ]. right. eexists (x', _), p, q, m. auto 6.
Qed.
Lemma cuts_extend c vs : forall w, cuts 0 (fun x => sunk (fst x)) (extend c vs w).
Proof.
  induction vs as [ | v vs IH ]; intros w s Hs; cbn [extend]; [ now apply (cuts_ret _ (Ok tt, w)) | ].
  destruct (cuts_push c v w s Hs) as ((x, w1) & b & E & HF). rewrite E. destruct x as [ [] | e | ].
  - destruct (IH w1 (put s b None) eq_refl) as (y & b2 & E2 & HF2). exists y, (b ++ b2). rewrite E2, put_put, lenN_app. split; [ reflexivity | ]. intros n.
    destruct (HF n) as [ (m' & L & E') | ((x', w2) & p & q & m' & L & Hb & -> & Hq & E') ]; rewrite E'.
    + destruct (HF2 m') as [ (m2 & L2 & E2') | (x' & p & q & m2 & L2 & Hb & -> & Hq & E2') ]; rewrite put_fuelled in E2'; rewrite E2', put_put; [ left; exists m2; split; [ lia | reflexivity ] | ].
      right. exists x', (b ++ p), q, m2. rewrite app_assoc. split; [ lia | auto ].
    + cbn [fst] in Hb. rewrite Hb. right. exists (Err ESink, w2), p, (q ++ b2), m'. rewrite app_assoc. split; [ lia | ]. repeat apply conj; auto; [ reflexivity | ]. intros H. apply app_eq_nil in H as (H & _). auto.
  - exists (Err e, w1), b. split; [ reflexivity | ]. intros n. destruct (HF n) as [ (m' & L & E') | ((x', w2) & p & q & m' & L & Hb & Hw & Hq & E') ]; rewrite E'; [ left; eauto | ].
    cbn [fst] in Hb. rewrite Hb. right. exists (Err ESink, w2), p, q, m'. split; [ lia | ]. repeat apply conj; auto; reflexivity.
  - exists (Panic, w1), b. split; [ reflexivity | ]. intros n. destruct (HF n) as [ (m' & L & E') | ((x', w2) & p & q & m' & L & Hb & Hw & Hq & E') ]; rewrite E'; [ left; eauto | ].
    cbn [fst] in Hb. rewrite Hb. right. exists (Err ESink, w2), p, q, m'. split; [ lia | ]. repeat apply conj; auto; reflexivity.
Qed.
Lemma extend_info c vs : forall w s, w_shape_info (snd (fst (extend c vs w s))) = w_shape_info w.
Proof.
  induction vs as [ | v vs IH ]; intros w s; cbn [extend]; [ reflexivity | ]. assert (P : w_shape_info (snd (fst (push c v w s))) = w_shape_info w).
  { unfold push. destruct (u64_add c (w_num_items w) 1); [ | reflexivity | reflexivity ]. destruct (write_one c (w_writer w) v) as (bs, r). destruct (sbind _ _ s). reflexivity. }
  destruct (push c v w s) as (([ [] | | ], w'), s'); cbn [fst snd] in *; [ | auto | auto ]. now rewrite IH.
Qed.
Lemma begin_known c t d o shape s w s' : begin_nd c t d o shape s = (Ok w, s') -> exists n, w_shape_info w = Known n.
Proof.
  intros H. unfold begin_nd in H. apply begin_ok_inv in H as (_ & dict & pad & hdr' & props & info & tw' & Hc' & _ & _ & _ & _ & ->). cbn [create_dict] in Hc'.
  apply bind_ok in Hc' as (n & _ & Hc'). apply Ok_inj, pair_inj in Hc' as (_ & <-). exists n. reflexivity.
Qed.
Lemma drop_none w n s b : w_shape_info w = Known n -> drop_writer w (put s b None) = (Ok tt, put s b None).
Proof. intros H. unfold drop_writer, finish_. rewrite H. destruct (negb (n =? w_num_items w)); reflexivity. Qed.
Lemma drop_some w n s b k : w_shape_info w = Known n -> exists k', k <= k' + 1 /\ drop_writer w (put s b (Some k)) = (Ok tt, put s b (Some k')).
Proof.
  intros H. unfold drop_writer, finish_. rewrite H. destruct (negb (n =? w_num_items w)); [ exists k; split; [ lia | reflexivity ] | ].
  unfold sink_flush, sink_tick. cbn [put sk_fuel sk_data sk_pos]. destruct (k =? 0); [ exists k | exists (k - 1) ]; (split; [ lia | reflexivity ]).
Qed.
Lemma cuts_array c t d o shape vs : cuts 1 sunk (extend_and_drop c t d o shape vs).
Proof.
  unfold extend_and_drop. apply cuts_bind; [ apply cuts_begin | ]. intros w s0 s0' Hb s Hs. apply begin_known in Hb as (k & Hk).
  destruct (cuts_extend c vs w s Hs) as ((x, w1) & b & E & HF). rewrite E. pose proof (extend_info c vs w s) as Hi. rewrite E in Hi. cbn [fst snd] in Hi.
  rewrite (drop_none w1 k s b (eq_trans Hi Hk)). exists x, b. split; [ reflexivity | ]. intros n.
  pose proof (extend_info c vs w (fuelled s n)) as Hi'. destruct (HF n) as [ (m & L & E2) | ((x', w2) & p & q & m & L & Hbad & Hw & Hq & E2) ]; rewrite E2 in *; cbn [fst snd] in *.
  - destruct (drop_some w1 k s b m (eq_trans Hi Hk)) as (m' & L3 & E3). rewrite E3. left. exists m'. split; [ lia | reflexivity ].
  - destruct (drop_some w2 k s p m (eq_trans Hi' Hk)) as (m' & L3 & E3). rewrite E3. right. exists x', p, q, m'. split; [ lia | auto ].
Qed.

(** * Archives *)
Definition zcuts (k : npz_writer -> res unit * npz_writer) : Prop :=
  forall a, exists r new, k {| nz_entries := a; nz_fuel := None |} = (r, {| nz_entries := a ++ new; nz_fuel := None |}) /\
  forall n, (exists m, n <= m + needed new /\ k {| nz_entries := a; nz_fuel := Some n |} = (r, {| nz_entries := a ++ new; nz_fuel := Some m |}))
    \/ exists left m, n < needed new /\ stopped new left /\ k {| nz_entries := a; nz_fuel := Some n |} = (Err ESink, {| nz_entries := a ++ left; nz_fuel := Some m |}).
Lemma needed_app a b : needed (a ++ b) = needed a + needed b.
Proof. unfold needed. induction a as [ | e a IH ]; [ reflexivity | ]. cbn [app fold_right]. rewrite IH. lia. Qed.
Lemma zcuts_ret r : zcuts (zret r).
Proof. intros a. exists r, []. rewrite app_nil_r. split; [ reflexivity | ]. intros n. left. exists n. split; [ lia | reflexivity ]. Qed.
Lemma stopped_before new1 new2 left : stopped new1 left -> stopped (new1 ++ new2) left.
Proof.
  intros [ done next rest -> | done name part missing rest -> Hm ]; rewrite <- app_assoc, <- app_comm_cons; [ eapply stopped_between | eapply stopped_within ]; eauto.
Qed.
Lemma stopped_after new1 new2 left : stopped new2 left -> stopped (new1 ++ new2) (new1 ++ left).
Proof.
  intros [ done next rest -> | done name part missing rest -> Hm ]; rewrite ?app_assoc; [ eapply stopped_between | eapply stopped_within ]; eauto.
Qed.
Lemma zcuts_bind k1 k2 : zcuts k1 -> zcuts k2 -> zcuts (let% _u := k1 in k2).
Proof.
  intros H1 H2 a. destruct (H1 a) as (r & new & E & HF). unfold zbind. rewrite E. destruct r as [ [] | e | ].
  - destruct (H2 (a ++ new)) as (r2 & new2 & E2 & HF2). exists r2, (new ++ new2). rewrite E2, app_assoc, needed_app. split; [ reflexivity | ]. intros n.
    destruct (HF n) as [ (m & L & E') | (lf & m & L & Hs & E') ]; rewrite E'.
    + destruct (HF2 m) as [ (m2 & L2 & E2') | (lf & m2 & L2 & Hs & E2') ]; rewrite E2'; [ left; exists m2; split; [ lia | reflexivity ] | ]. right. exists (new ++ lf), m2. rewrite app_assoc. split; [ lia | auto using stopped_after ].
    + right. exists lf, m. split; [ lia | auto using stopped_before ].
  - exists (Err e), new. split; [ reflexivity | ]. intros n. destruct (HF n) as [ (m & L & E') | (lf & m & L & Hs & E') ]; rewrite E'; [ eauto | right; exists lf, m; auto ].
  - exists Panic, new. split; [ reflexivity | ]. intros n. destruct (HF n) as [ (m & L & E') | (lf & m & L & Hs & E') ]; rewrite E'; [ eauto | right; exists lf, m; auto ].
Qed.
Lemma zcuts_array name k : cuts 1 sunk k -> zcuts (npz_array name k).
Proof.
  assert (HP : forall l f, sk_data (put empty_sink l f) = l) by (intros l f; rewrite put_end by reflexivity; reflexivity).
  intros Hk a. destruct (Hk empty_sink eq_refl) as (r & w & E & HF). exists r, [(file_name_from_array_name name, sk_data (put empty_sink w None))].
  split; [ now rewrite (array_none _ _ {| nz_entries := a; nz_fuel := None |} _ _ eq_refl E) | ]. rewrite HP. unfold needed. cbn [fold_right snd].
  intros n. unfold npz_array, sink_tick. cbn [sk_fuel sk_data sk_pos nz_fuel nz_entries]. destruct (N.eqb_spec n 0) as [ -> | Hn ].
  - right. exists [], 0. rewrite app_nil_r. split; [ lia | ]. split; [ | reflexivity ]. eapply (stopped_between _ [] _ []). reflexivity.
  - change {| sk_data := []; sk_pos := 0; sk_fuel := Some (n - 1) |} with (fuelled empty_sink (n - 1)).
    destruct (HF (n - 1)) as [ (m & L & E') | (x' & p & q & m & L & -> & -> & Hq & E') ]; rewrite E', HP; [ left; exists m; split; [ lia | reflexivity ] | right ].
    eexists [(_, _)], m. split; [ lia | ]. split; [ | reflexivity ]. apply (stopped_within _ [] _ _ q []); [ reflexivity | exact Hq ].
Qed.
Lemma cuts_default c t k : (forall d, cuts 1 sunk (k d)) -> cuts 1 sunk (with_default c t k).
Proof. intros H. unfold with_default. destruct (default_dtype c t) as [ [ d | | ] | ]; auto; apply cuts_ret. Qed.
Lemma zcuts_bind_ret {A} (x : res A) (k : A -> npz_writer -> res unit * npz_writer) : (forall a, zcuts (k a)) -> zcuts (let% n := zret x in k n).
Proof.
  intros H a. unfold zbind, zret. destruct x as [ y | e | ]; [ apply H | apply (zcuts_ret (Err e)) | apply (zcuts_ret Panic) ].
Qed.
Lemma zcuts_format c f : zcuts (write_format c f).
Proof. apply zcuts_array, cuts_array. Qed.
Lemma zcuts_shape c s : zcuts (write_shape c s).
Proof. apply zcuts_array, cuts_default. intros. apply cuts_array. Qed.
Lemma zcuts_indices c name l : zcuts (write_indices c name l).
Proof. unfold write_indices. destruct (most_negative_and_positive l) as (mn, mx). destruct (_ && _)%bool; apply zcuts_array, cuts_default; intros; apply cuts_array. Qed.
Lemma zcuts_data c t vs shape : zcuts (write_data c t vs shape).
Proof. apply zcuts_array, cuts_default. intros. apply cuts_array. Qed.
Lemma sparse_cuts c t m : zcuts (sparse_write_npz c t m).
Proof.
  destruct m as [ m | m | m | m | m ]; cbn [sparse_write_npz]; unfold coo_write_npz, csr_write_npz, csc_write_npz, dia_write_npz, bsr_write_npz.
  5: destruct (bsr_blocksize m) as (b0, b1).
  all: repeat first [ apply zcuts_ret | apply zcuts_format | apply zcuts_shape | apply zcuts_indices | apply zcuts_data | apply zcuts_bind | apply zcuts_bind_ret; intros
                    | match goal with |- zcuts (if ?b then _ else _) => destruct b end ].
Qed.

(** * A member cut short *)
Lemma cut_file c t d o shape file data p q f src' items : bytes_ok file -> file_with d o shape file data -> (exists n, num_bytes c d = Some n) -> strings_fit (c_usize_max c) d ->
  lenN data <= count shape * size d -> file = p ++ q -> q <> [] -> npy_new c {| cur_data := p; cur_pos := 0 |} = (Ok f, src') -> fst (npy_into_vec c t f) <> Ok items.
Proof.
  intros Hb Hf Hc Hs Hl -> Hq Hnew Hi. destruct (Hf c [] Hc) as (hd & H1 & H2 & H3 & H4 & H5). rewrite !app_nil_r in H1. apply Forall_app in Hb as (Hb & _).
  pose proof (cursor_run c [] p) as Hr. cbn [app] in Hr. change (lenN []) with 0 in Hr. pose proof (run_prefix (read_and_interpret c) p q) as HP.
  destruct (run (read_and_interpret c) p) as (x, rest) eqn:E0. rewrite Hr in Hnew. destruct x as [ hd' | | ]; try discriminate Hnew. rewrite H1 in HP. apply pair_inj in HP as (HP1 & HP2). apply Ok_inj in HP1. subst hd'.
  assert (Hshort : lenN rest < count shape * size d). { rewrite HP2, lenN_app in Hl. assert (lenN q <> 0) by (destruct q; [ congruence | rewrite lenN_cons; lia ]). lia. }
  apply pair_inj in Hnew as (Hnew & _). apply Ok_inj in Hnew. subst f.
  cbn zeta in *.
  match type of Hi with fst (npy_into_vec c t ?f) = _ => destruct (npy_data c t f) as [ r | e ] eqn:Ed end; [ | unfold npy_into_vec in Hi; rewrite Ed in Hi; discriminate Hi ].
  eapply into_vec_exact in Hi; [ | cbn [nf_header]; rewrite H2; exact Hs | | exact Hr | exact Ed ]; [ | exact Hb ].
  destruct Hi as (blocks & more & Hd & Hst & Hn). cbn [nf_header nf_src] in *. apply stored_len in Hst as (Hst1 & Hst2).
  unfold cur_rest in Hd. cbn [cur_data cur_pos] in Hd. destruct (run_suffix _ _ _ _ E0) as (pre & ->).
  rewrite (dropN_app _ pre rest) in Hd by (rewrite lenN_app; lia). rewrite Hd, lenN_app, Hst1, Hn, H2, H5 in Hshort. lia.
Qed.

(** * What a reader must have found *)
Definition intact (c : cfg) (a : archive) (name : text) : Prop :=
  exists f t vs, by_name c a name = Ok (Some f) /\ fst (npy_into_vec c t f) = Ok vs.
Lemma checked_inv c a name n f : extract_and_check_ndim c a name n = Ok f -> by_name c a name = Ok (Some f).
Proof.
  unfold extract_and_check_ndim. intros H. apply bind_ok in H as ([ g | ] & E & H); [ | discriminate ]. destruct (_ =? _); [ | discriminate ]. apply Ok_inj in H. now subst.
Qed.
Lemma try_collect c t f r vs : npy_try_data c t f = inl r -> collect_all c r = Ok vs -> fst (npy_into_vec c t f) = Ok vs.
Proof.
  unfold npy_try_data, npy_into_vec, npy_data, collect_all, nr_total_len. destruct (h_pickled (nf_header f)); [ discriminate | ]. destruct (reader c t (h_dtype (nf_header f))); [ | discriminate ].
  intros H. injection H as <-. cbn [dbind nr_header]. intros <-. destruct (nr_collect _ _ _) as (v, r'). reflexivity.
Qed.
Lemma try_back c t f g : npy_try_data c t f = inr g -> g = f.
Proof. unfold npy_try_data. destruct (h_pickled _); [ congruence | ]. destruct (reader _ _ _); congruence. Qed.
Lemma indices_intact c a name l : extract_indices c a name = Ok l -> intact c a name.
Proof.
  unfold extract_indices. intros H. apply bind_ok in H as (f & E & H). apply checked_inv in E. destruct (npy_try_data c i32_type f) as [ r | g ] eqn:E1.
  - apply bind_ok in H as (vs & H & _). exists f, i32_type, vs. eauto using try_collect.
  - apply try_back in E1. subst g. destruct (npy_try_data c i64_type f) as [ r | g ] eqn:E1; [ | discriminate ].
    apply bind_ok in H as (vs & H & _). exists f, i64_type, vs. eauto using try_collect.
Qed.
Lemma signed_intact c a name l : extract_signed_indices c a name = Ok l -> intact c a name.
Proof.
  unfold extract_signed_indices. intros H. apply bind_ok in H as (f & E & H). apply checked_inv in E. destruct (npy_try_data c i32_type f) as [ r | g ] eqn:E1.
  - apply bind_ok in H as (vs & H & _). exists f, i32_type, vs. eauto using try_collect.
  - apply try_back in E1. subst g. destruct (npy_try_data c i64_type f) as [ r | g ] eqn:E1; [ | discriminate ].
    apply bind_ok in H as (vs & H & _). exists f, i64_type, vs. eauto using try_collect.
Qed.
Lemma usize_intact c a name l : extract_usize_indices c a name = Ok l -> intact c a name.
Proof. unfold extract_usize_indices. intros H. apply bind_ok in H as (? & H & _). eauto using indices_intact. Qed.
Lemma shape_intact c a name l : extract_shape c a name = Ok l -> intact c a name.
Proof. unfold extract_shape. intros H. apply bind_ok in H as (? & H & _). eauto using indices_intact. Qed.
Lemma oned_intact c a t name l : extract_1d c a t name = Ok l -> intact c a name.
Proof. unfold extract_1d. intros H. apply bind_ok in H as (f & E & H). apply checked_inv in E. exists f, t, l. auto. Qed.
Lemma nd_intact c a t name n l : extract_nd c a t name n = Ok l -> intact c a name.
Proof.
  unfold extract_nd. intros H. apply bind_ok in H as (f & E & H). apply checked_inv in E. destruct (h_order _); [ | discriminate ]. apply bind_ok in H as (vs & H & _). exists f, t, vs. auto.
Qed.
Lemma format_intact c a b : the_format c a = Ok b -> intact c a (lit "format").
Proof.
  unfold the_format, extract_scalar. intros H. apply bind_ok in H as (v & H & _). apply bind_ok in H as (f & E & H). apply checked_inv in E. apply bind_ok in H as (vs & H & _).
  exists f, RVecU8, vs. auto.
Qed.
Lemma expect_inv c a b : expect_format c a b = Ok tt -> the_format c a = Ok b.
Proof.
  unfold expect_format. intros H. apply bind_ok in H as (b' & E & H). destruct (eqb_list b' b) eqn:Eb; [ | discriminate ]. apply eqb_list_eq in Eb. congruence.
Qed.

Lemma layout_members c t d m : map sv_name (layout c t d m) = members (format_of m).
Proof. destruct m; cbn [layout map format_of members]; rewrite ?index_name; reflexivity. Qed.
Lemma read_needs f c t a m : read_as f c t a = Ok m -> the_format c a = Ok (format_name f) /\ forall name, In name (members f) -> intact c a name.
Proof.
  destruct f; cbn [read_as]; unfold coo_from_npz, csr_from_npz, csc_from_npz, dia_from_npz, bsr_from_npz; intros H; apply bind_ok in H as (x & H & _);
    apply bind_ok in H as ([] & E0 & H); apply expect_inv in E0; (split; [ exact E0 | ]); apply format_intact in E0;
    apply bind_ok in H as (? & E1 & H); apply shape_intact in E1;
    apply bind_ok in H as (? & E2 & H); (apply indices_intact in E2 || apply signed_intact in E2 || apply usize_intact in E2);
    apply bind_ok in H as (? & E3 & H); (apply indices_intact in E3 || apply usize_intact in E3 || apply oned_intact in E3 || apply nd_intact in E3);
    try (apply bind_ok in H as (? & E4 & H); (apply oned_intact in E4 || apply nd_intact in E4));
    intros name Hn; cbn [members In] in Hn; intuition (subst; auto).
Qed.
Lemma sparse_is_typed c t a m : sparse_from_npz c t a = Ok m -> exists f, read_as f c t a = Ok m.
Proof.
  unfold sparse_from_npz. intros H. apply bind_ok in H as (b & _ & H).
  destruct (eqb_list b (lit "coo")); [ now exists FCoo | ]. destruct (eqb_list b (lit "csc")); [ now exists FCsc | ]. destruct (eqb_list b (lit "csr")); [ now exists FCsr | ].
  destruct (eqb_list b (lit "dia")); [ now exists FDia | ]. destruct (eqb_list b (lit "bsr")); [ now exists FBsr | discriminate ].
Qed.

(** * The members of a matrix *)
Definition fragile (c : cfg) (bs : bytes) : Prop :=
  forall p q t f src items, bs = p ++ q -> q <> [] -> npy_new c {| cur_data := p; cur_pos := 0 |} = (Ok f, src) -> fst (npy_into_vec c t f) <> Ok items.
(** A whole file that opens. *)
Definition mild (c : cfg) (bs : bytes) : Prop :=
  bytes_ok bs /\ exists h data, run (read_and_interpret c) bs = (Ok h, data) /\ strings_fit (c_usize_max c) (h_dtype h).
Lemma file_mild c d o shape file data : bytes_ok file -> file_with d o shape file data -> (exists n, num_bytes c d = Some n) -> strings_fit (c_usize_max c) d -> mild c file.
Proof.
  intros Hb Hf Hn Hs. split; [ exact Hb | ]. destruct (Hf c [] Hn) as (h & E & Hd & _). rewrite !app_nil_r in E. exists h, data. split; [ exact E | now rewrite Hd ].
Qed.
Definition member_of (c : cfg) (x : saved) (e : text * bytes) : Prop := fst e = file_name_from_array_name (sv_name x) /\ fragile c (snd e) /\ mild c (snd e).
Lemma saved_fragile c c' x a : is_array x -> can_write c x -> sizes_fit (c_usize_max c') (sv_dtype x) -> strings_fit (c_usize_max c') (sv_dtype x) -> sv_ending x = Dropped ->
  exists e, save c x {| nz_entries := a; nz_fuel := None |} = (Ok tt, {| nz_entries := a ++ [e]; nz_fuel := None |}) /\ member_of c' x e.
Proof.
  intros Hx (Ht & Hsf & Ha & He & Hs) Hz Hst He'. pose proof (array_len x Hx) as Hl. destruct Hx as (Hwf & Hv & H64 & Hno & Hc).
  destruct (P_Whole.all_encodings _ _ _ He) as (payload & Hp). destruct (product_defined c (sv_shape x) (fun _ => Hno)) as (n & Hn).
  destruct (fixed_exact c _ _ (sv_order x) _ _ payload n Hwf Hsf Ht Ha Hv Hl H64 Hn Hs Hp) as (file & E & _ & Hf & Hb). specialize (Hf Hno).
  exists (file_name_from_array_name (sv_name x), file). split; [ unfold save; rewrite He'; exact (array_none _ _ {| nz_entries := a; nz_fuel := None |} _ _ eq_refl E) | ].
  assert (HN : exists n, num_bytes c' (sv_dtype x) = Some n) by (exists (size (sv_dtype x)); apply num_bytes_exact; split; [ eapply accepts_no_object; eauto | auto ]).
  split; [ reflexivity | ]. split; [ | eapply file_mild; eauto ]. intros p q t f src items Ep Hq Hnew. eapply cut_file; [ exact Hb | exact Hf | exact HN | exact Hst | | exact Ep | exact Hq | exact Hnew ].
  rewrite (encodings_len _ _ _ _ Ha Hv _ Hp), Hc. lia.
Qed.
Lemma all_fragile c c' l : Forall (fun x => sv_ending x = Dropped) l -> Forall (storable c c') l -> forall a,
  exists new, save_all c l {| nz_entries := a; nz_fuel := None |} = (Ok tt, {| nz_entries := a ++ new; nz_fuel := None |}) /\ Forall2 (member_of c') l new.
Proof.
  induction 1 as [ | x l Hx Hl IH ]; intros Hst a; [ exists []; rewrite app_nil_r; auto | ]. apply Forall_cons_iff in Hst as ((H1 & H2 & (_ & H3 & H4) & _) & Hst).
  destruct (saved_fragile c c' x a H1 H2 H3 H4 Hx) as (e & E & He). destruct (IH Hst (a ++ [e])) as (new & E2 & HF). exists (e :: new). cbn [save_all]. unfold zbind. rewrite E, E2, <- app_assoc. auto.
Qed.
Lemma parts_dropped c t d m : Forall (fun x => sv_ending x = Dropped) (parts c t d m).
Proof. destruct m; unfold parts; cbn [layout removelast]; repeat constructor; unfold index_array; destruct (forallb _ _); reflexivity. Qed.
(** The whole run: the parts, whole and readable; then the data, or a panic. *)
Lemma whole_run c c' t d m a : wf_cfg c -> wf_cfg c' -> numbers_ok (c_usize_max c) m -> data_writable c t d (data_of m) -> no_overflow (data_shape m) ->
  sizes_fit (c_usize_max c') d -> strings_fit (c_usize_max c') d ->
  exists r new last, sparse_write_npz c t m {| nz_entries := a; nz_fuel := None |} = (r, {| nz_entries := a ++ new ++ last; nz_fuel := None |})
  /\ Forall2 (member_of c') (parts c t d m) new /\ Forall2 (holds c') (parts c t d m) new
  /\ (r = Ok tt /\ (exists e, last = [e] /\ member_of c' (array (lit "data") t d (data_shape m) (data_of m)) e) \/ r = Panic /\ last = []).
Proof.
  intros Hc Hc' Hm Hd Hno Hsz Hst. set (z := {| nz_entries := a; nz_fuel := None |}). destruct (parts_written c t d m z Hc Hm eq_refl) as (new & Ep & HF). specialize (HF c' Hc').
  destruct (all_fragile c c' (parts c t d m) (parts_dropped c t d m) (parts_storable c c' t d m Hc Hc' Hm) a) as (new' & Ep' & HF'). fold z in Ep'. rewrite Ep in Ep'.
  apply pair_inj in Ep' as (_ & Ep'). injection Ep' as Ep'. apply app_inv_head in Ep'. subst new'.
  destruct (sparse_demanded c t d m z (proj1 Hd) (proj1 Hm)) as [ (Hdem & ->) | (Hdem & ->) ].
  - rewrite layout_split, save_all_app. unfold zbind. rewrite Ep. cbn [save_all].
    destruct (data_written c t d m _ Hc Hm Hd Hdem (eq_refl : nz_fuel {| nz_entries := nz_entries z ++ new; nz_fuel := None |} = None)) as (payload & file & E & He & _ & Hfile & Hb).
    specialize (Hfile Hno). unfold zbind. rewrite E. cbn [nz_entries]. rewrite <- app_assoc. exists (Ok tt), new, [(lit "data.npy", file)]. split; [ reflexivity | ]. split; [ auto | ]. split; [ auto | ].
    left. split; [ reflexivity | ]. eexists. split; [ reflexivity | ]. split; [ reflexivity | ]. cbn [snd].
    destruct Hd as (Hdd & Hh & _ & _ & Hv & _). destruct (default_ok c t Hc Hh) as (d' & Hd' & _ & _ & Ha & _). rewrite Hdd in Hd'. injection Hd' as <-.
    assert (HN : exists n, num_bytes c' d = Some n) by (exists (size d); apply num_bytes_exact; split; [ eapply accepts_no_object; exact (Ha Writing) | auto ]).
    split; [ | eapply file_mild; eauto ]. intros p q t' f src items Eq Hq Hnew. eapply cut_file; [ exact Hb | exact Hfile | exact HN | exact Hst | | exact Eq | exact Hq | exact Hnew ].
    + rewrite (encodings_len _ _ _ _ (Ha Writing) Hv _ He). apply N.mul_le_mono_r. destruct m as [ m | m | m | m | m ]; cbn [data_shape data_of demanded] in *; unfold count; cbn [fold_right]; try lia.
      * destruct Hdem as (H0 & k & Hk). rewrite Hk, N.div_mul by auto. lia.
      * fold (block_items m). replace (lenN (bsr_indices m) * (fst (bsr_blocksize m) * (snd (bsr_blocksize m) * 1))) with (block_items m) by (unfold block_items; lia).
        destruct (c_ovf_panics c); [ lia | ]. rewrite Hdem. apply N.mod_le. lia.
  - unfold zbind. rewrite Ep. exists Panic, new, []. rewrite app_nil_r. split; [ reflexivity | ]. auto.
Qed.

Lemma missing_member c a name : ~ In (file_name_from_array_name name) (map fst a) -> ~ intact c a name.
Proof. intros H (f & t & vs & E & _). unfold by_name in E. apply find_none in H. rewrite H in E. discriminate E. Qed.
Lemma cut_member c a name part missing : fragile c (part ++ missing) -> missing <> [] -> ~ intact c (a ++ [(file_name_from_array_name name, part)]) name.
Proof.
  intros Hf Hm (f & t & vs & E & Hv). unfold by_name in E. rewrite find_app, find_one, eqb_list_refl in E.
  destruct (npy_new c _) as (r, src) eqn:En. cbn [fst] in E. apply bind_ok in E as (g & -> & E). apply Ok_inj in E. injection E as <-. eapply Hf; eauto.
Qed.
Lemma members_names c l new : Forall2 (member_of c) l new -> map fst new = map (fun x => file_name_from_array_name (sv_name x)) l.
Proof. induction 1 as [ | x e l new (E & _) _ IH ]; [ reflexivity | ]. cbn [map]. now rewrite E, IH. Qed.
Lemma stopped_names whole left : stopped whole left -> incl (map fst left) (map fst whole).
Proof.
  intros [ done next rest -> | done name part missing rest -> Hm ]; rewrite !map_app; cbn [map fst].
  - apply incl_appl, incl_refl.
  - apply incl_app; [ apply incl_appl, incl_refl | ]. apply incl_appr. intros x [ <- | [] ]. now left.
Qed.
Lemma names_injective l : NoDup (map sv_name l) -> NoDup (map (fun x => file_name_from_array_name (sv_name x)) l).
Proof.
  induction l as [ | x l IH ]; [ constructor | ]. cbn [map]. intros H. inversion H as [ | ? ? H1 H2 ]; subst. constructor; [ | auto ]. now apply not_saved.
Qed.
Lemma stopped_unreadable c l whole left a : Forall2 (member_of c) l whole -> NoDup (map sv_name l) -> stopped whole left ->
  (forall x, In x l -> ~ In (file_name_from_array_name (sv_name x)) (map fst a)) -> exists x, In x l /\ ~ intact c (a ++ left) (sv_name x).
Proof.
  intros HF ND Hs Ha. apply names_injective in ND. rewrite <- (members_names c l whole HF) in ND. destruct Hs as [ done next rest -> | done name part missing rest -> Hm ].
  - apply Forall2_app_inv_r in HF as (l1 & l2 & HF1 & HF2 & ->). inversion HF2 as [ | x ? l2' ? (Hx & _) HF3 ]; subst. exists x. split; [ rewrite in_app_iff; cbn; auto | ].
    apply missing_member. rewrite map_app, in_app_iff. intros [ Hi | Hi ]; [ eapply Ha; [ | exact Hi ]; rewrite in_app_iff; cbn; auto | ].
    rewrite map_app in ND. cbn [map] in ND. apply NoDup_remove_2 in ND. apply ND. rewrite in_app_iff, Hx. auto.
  - apply Forall2_app_inv_r in HF as (l1 & l2 & HF1 & HF2 & ->). inversion HF2 as [ | x ? l2' ? (Hx & Hfr & _) HF3 ]; subst. exists x. split; [ rewrite in_app_iff; cbn; auto | ].
    cbn [fst snd] in *. rewrite Hx, app_assoc. eapply cut_member; eauto.
Qed.
Lemma stopped_head e0 w left : stopped (e0 :: w) left -> left = [] \/ (exists part missing, snd e0 = part ++ missing /\ missing <> [] /\ left = [(fst e0, part)])
  \/ exists left', left = e0 :: left' /\ incl (map fst left') (map fst w).
Proof.
  intros [ done next rest E | done name part missing rest E Hm ]; destruct done as [ | e done ].
  - auto.
  - right. right. injection E as <- ->. exists done. split; [ reflexivity | ]. rewrite map_app. apply incl_appl, incl_refl.
  - right. left. injection E as -> _. exists part, missing. auto.
  - right. right. injection E as <- ->. exists (done ++ [(name, part)]). split; [ reflexivity | ]. rewrite !map_app. apply incl_app; [ apply incl_appl, incl_refl | ].
    apply incl_appr. intros x [ <- | [] ]. now left.
Qed.

Lemma never_mistaken c c' t d t' m a n r z' : wf_cfg c -> wf_cfg c' -> numbers_ok (c_usize_max c) m -> data_writable c t d (data_of m) -> no_overflow (data_shape m) ->
  sizes_fit (c_usize_max c') d -> strings_fit (c_usize_max c') d ->
  (forall name, In name (members (format_of m)) -> ~ In (file_name_from_array_name name) (map fst a)) ->
  sparse_write_npz c t m {| nz_entries := a; nz_fuel := Some n |} = (r, z') -> r <> Ok tt ->
  forall m', (forall f, read_as f c' t' (nz_entries z') <> Ok m') /\ sparse_from_npz c' t' (nz_entries z') <> Ok m'.
Proof.
  intros Hc Hc' Hm Hd Hno Hsz Hst Ha H Hr m'.
  assert (G : forall f, read_as f c' t' (nz_entries z') <> Ok m').
  2: { split; [ exact G | ]. intros Hx. apply sparse_is_typed in Hx as (f & Hx). now apply (G f). }
  intros f HR. apply read_needs in HR as (Hfm & HR).
  destruct (whole_run c c' t d m a Hc Hc' Hm Hd Hno Hsz Hst) as (r0 & new & last & E & HF & HH & Hlast).
  destruct (sparse_cuts c t m a) as (r1 & whole & E1 & HC). rewrite E in E1. apply pair_inj in E1 as (<- & E1). injection E1 as E1. apply app_inv_head in E1. subst whole.
  pose proof (layout_names c t d m) as ND. pose proof (layout_members c t d m) as HN. rewrite layout_split in ND, HN.
  set (dx := array (lit "data") t d (data_shape m) (data_of m)) in *.
  (* the arrays written by a run to the end *)
  assert (HW : exists l, Forall2 (member_of c') l (new ++ last) /\ NoDup (map sv_name l) /\ incl (map sv_name l) (members (format_of m))).
  { destruct Hlast as [ (_ & e & -> & He) | (_ & ->) ].
    - exists (parts c t d m ++ [dx]). split; [ apply Forall2_app; auto | ]. split; [ exact ND | rewrite HN; apply incl_refl ].
    - exists (parts c t d m). rewrite app_nil_r. split; [ exact HF | ]. rewrite map_app in ND, HN. split; [ apply NoDup_remove_1 in ND; now rewrite app_nil_r in ND | rewrite <- HN; apply incl_appl, incl_refl ]. }
  destruct HW as (l & HL & NDl & Hincl).
  assert (Hp : exists rest, parts c t d m = format_array (format_of m) :: rest) by (destruct m; eexists; reflexivity). destruct Hp as (rest & Hp).
  assert (Hlhd : exists l', map sv_name l = lit "format" :: l').
  { rewrite Hp in HF. inversion HF as [ | ? e0 ? w0 (He0 & _) HF0 ]. subst new. cbn [app] in HL. inversion HL as [ | y ? l' ? (Hy & _) HL' ]. subst l. cbn [map]. exists (map sv_name l'). f_equal.
    rewrite He0 in Hy. symmetry. now apply file_name_inj in Hy. }
  (* what is left *)
  assert (HLeft : exists left, nz_entries z' = a ++ left /\ (exists name, In name (members (format_of m)) /\ ~ intact c' (a ++ left) name)
    /\ (~ intact c' (a ++ left) (lit "format") \/ exists e0 left' w, new = e0 :: w /\ left = e0 :: left' /\ incl (map fst left') (map fst (w ++ last)))).
  { destruct (HC n) as [ (k & _ & E2) | (lf & k & _ & Hs & E2) ]; rewrite H in E2; apply pair_inj in E2 as (-> & ->); cbn [nz_entries].
    - destruct Hlast as [ (-> & _) | (_ & ->) ]; [ congruence | ]. exists (new ++ []). split; [ reflexivity | ]. split.
      + exists (lit "data"). split; [ rewrite <- HN, map_app, in_app_iff; right; now left | ]. apply missing_member. rewrite app_nil_r, map_app, in_app_iff, (members_names _ _ _ HF).
        intros [ Hi | Hi ]; [ eapply Ha; [ | exact Hi ]; rewrite <- HN, map_app, in_app_iff; right; now left | ]. revert Hi. apply not_saved.
        rewrite map_app in ND. cbn [map] in ND. apply NoDup_remove_2 in ND. now rewrite app_nil_r in ND.
      + right. rewrite Hp in HF. inversion HF as [ | ? e0 ? w0 _ _ ]; subst. exists e0, (w0 ++ []), w0. split; [ reflexivity | ]. split; [ reflexivity | apply incl_refl ].
    - exists lf. split; [ reflexivity | ].
      destruct (stopped_unreadable c' l (new ++ last) lf a HL NDl Hs) as (x & Hx & Hni). { intros x Hx. apply Ha, Hincl. now apply in_map. }
      split; [ exists (sv_name x); split; [ apply Hincl; now apply in_map | exact Hni ] | ].
      rewrite Hp in HF. inversion HF as [ | ? e0 ? w0 (He0 & Hfr0 & _) _ ]; subst. cbn [app] in Hs. apply stopped_head in Hs as [ -> | [ (part & missing & Ee & Hq & ->) | (left' & -> & Hi) ] ].
      + left. apply missing_member. rewrite app_nil_r. apply Ha. rewrite <- HN, Hp. now left.
      + left. rewrite He0. eapply cut_member; [ rewrite <- Ee; exact Hfr0 | exact Hq ].
      + right. exists e0, left', w0. auto. }
  destruct HLeft as (lft & Ez & (name & Hname & Hni) & Hhead). rewrite Ez in *. pose proof (format_intact _ _ _ Hfm) as Hfi.
  destruct Hhead as [ Hhead | (e0 & left' & w & En & -> & Hi) ]; [ contradiction | ].
  rewrite Hp in HH. rewrite En in HH, HL. inversion HH as [ | ? ? ? ? Hh0 _ ]; subst.
  assert (Hf0 : found_array c' (a ++ [e0]) (format_array (format_of m))) by (apply (holds_found c' [format_array (format_of m)] [e0] a); [ auto | repeat constructor; intros [] | now left ]).
  assert (Hff : found_array c' (a ++ e0 :: left') (format_array (format_of m))).
  { destruct Hf0 as (nf & Hn & Hrest). exists nf. split; [ | exact Hrest ]. revert Hn. change (e0 :: left') with ([e0] ++ left'). rewrite app_assoc. unfold by_name. rewrite (find_app _ (a ++ [e0])).
    replace (zip_find _ left') with (@None bytes); [ exact (fun x => x) | ]. symmetry. apply find_none. intros Hin. apply Hi in Hin.
    destruct Hlhd as (l' & Hl'). apply names_injective in NDl. rewrite <- (members_names _ _ _ HL) in NDl. cbn [app map] in NDl. inversion NDl as [ | ? ? HN1 _ ]. apply HN1.
    destruct Hh0 as (-> & _). exact Hin. }
  apply read_format in Hff. rewrite Hfm in Hff. apply Ok_inj in Hff. assert (f = format_of m) as -> by (apply format_eqb; rewrite Hff; apply eqb_list_refl).
  now apply Hni, HR.
Qed.

(** * Every file left behind is the beginning of one that opens *)
Lemma left_mild c c' t d m n r z' : wf_cfg c -> wf_cfg c' -> numbers_ok (c_usize_max c) m -> data_writable c t d (data_of m) -> no_overflow (data_shape m) ->
  sizes_fit (c_usize_max c') d -> strings_fit (c_usize_max c') d ->
  sparse_write_npz c t m {| nz_entries := []; nz_fuel := Some n |} = (r, z') -> Forall (fun e => exists q, mild c' (snd e ++ q)) (nz_entries z').
Proof.
  intros Hc Hc' Hm Hd Hno Hsz Hst H.
  destruct (whole_run c c' t d m [] Hc Hc' Hm Hd Hno Hsz Hst) as (r0 & new & last & E & HF & _ & Hlast).
  destruct (sparse_cuts c t m []) as (r1 & whole & E1 & HC). rewrite E in E1. apply pair_inj in E1 as (<- & E1). injection E1 as E1. cbn [app] in E1. subst whole.
  assert (HW : Forall (fun e => mild c' (snd e)) (new ++ last)).
  { apply Forall_app. split; [ clear - HF; induction HF as [ | x e l new (_ & _ & He) HF IH ]; constructor; auto | ]. destruct Hlast as [ (_ & e & -> & _ & _ & He) | (_ & ->) ]; [ constructor; [ exact He | constructor ] | constructor ]. }
  destruct (HC n) as [ (k & _ & E2) | (lf & k & _ & Hs & E2) ]; rewrite H in E2; apply pair_inj in E2 as (-> & ->); cbn [nz_entries app].
  - eapply Forall_impl; [ | exact HW ]. intros e He. exists []. now rewrite app_nil_r.
  - destruct Hs as [ done next rest Ew | done name part missing rest Ew Hq ]; rewrite Ew in HW; apply Forall_app in HW as (H1 & H2).
    + eapply Forall_impl; [ | exact H1 ]. intros e He. exists []. now rewrite app_nil_r.
    + apply Forall_app. split; [ eapply Forall_impl; [ | exact H1 ]; intros e He; exists []; now rewrite app_nil_r | ]. apply Forall_cons_iff in H2 as (H2 & _). constructor; [ exists missing; exact H2 | constructor ].
Qed.
