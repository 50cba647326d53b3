(** Reading items, seeking, whole arrays. *)
From Verif Require Import M_Base M_Text M_TypeStr M_IO M_Header M_Read M_Serialize M_NpyReader S_TypeStr S_DType S_Shape S_Header S_Text S_Elem S_Strings S_Reader
  P_Base P_Text P_TypeStr P_IO P_Shape P_Header P_Number P_Elem P_ReadOne P_WriteOne P_Codec P_Sizes P_Strings P_Parse S_Dict P_Interp P_ElemT.
Open Scope N_scope.

(** * Opened files *)
Lemma product_from_lt c l : forall acc n, acc < 2 ^ 64 -> product_from c acc l = Ok n -> n < 2 ^ 64.
Proof.
  induction l as [ | x l IH ]; intros acc n Ha H; cbn [product_from] in H; [ now injection H as <- | ].
  apply bind_ok in H as (a & Hm & H). apply IH in H; auto. unfold u64_mul in Hm. destruct (N.ltb_spec (acc * x) (2 ^ 64)).
  - now injection Hm as <-.
  - destruct (c_ovf_panics c); [ discriminate | ]. apply Ok_inj in Hm as <-. now apply N.mod_lt.
Qed.
Lemma product_lt c l n : product c l = Ok n -> n < 2 ^ 64.
Proof. apply product_from_lt. reflexivity. Qed.

Lemma npy_new_inv c src f src' : npy_new c src = (Ok f, src') ->
  nf_src f = src' /\ run_cursor (read_and_interpret c) src = (Ok (nf_header f), src')
  /\ exists d shape o, from_parts c d shape o = Ok (nf_header f).
Proof.
  unfold npy_new. destruct (run_cursor (read_and_interpret c) src) as ([ h | e | ], s') eqn:E; try discriminate.
  intros H. apply pair_inj in H as (H & <-). apply Ok_inj in H as <-. cbn [nf_src nf_header]. split; [ reflexivity | ]. split; [ reflexivity | ].
  unfold run_cursor in E. destruct (run (read_and_interpret c) (cur_rest src)) as (r & rest) eqn:Er. apply pair_inj in E as (-> & _).
  apply preamble_exact in Er as (pre & txt & hv & d & shape & o & _ & _ & _ & _ & H). eauto.
Qed.

Lemma opened c src f src' : bytes_ok (cur_data src) -> npy_new c src = (Ok f, src') ->
  wf_dtype (h_dtype (nf_header f)) /\ h_n_records (nf_header f) < 2 ^ 64
  /\ h_pickled (nf_header f) = uses_pickled_array (h_dtype (nf_header f)).
Proof.
  intros Hb H. apply npy_new_inv in H as (_ & H & d & shape & o & Hp). unfold run_cursor in H.
  destruct (run (read_and_interpret c) (cur_rest src)) as (r & rest) eqn:E. apply pair_inj in H as (-> & _).
  apply from_parts_ok in Hp as (Hd & _ & _ & Hn & _ & Hk & _). split; [ | split ].
  - eapply (proj1 (read_wf c _ _ _ _ E)).
    Unshelve. now apply Forall_dropN.
  - eapply product_lt; eauto.
  - now rewrite Hd.
Qed.

(** The facts about an open file and a reader for it that the proofs below use. *)
Definition opens (c : cfg) (t : rty) (f : npy_file) (rd : treader) : Prop :=
  wf_dtype (h_dtype (nf_header f)) /\ h_n_records (nf_header f) < 2 ^ 64
  /\ reader c t (h_dtype (nf_header f)) = DOk rd /\ h_item_size (nf_header f) = Some (size (h_dtype (nf_header f)))
  /\ strings_fit (c_usize_max c) (h_dtype (nf_header f)).

Lemma data_opened c t src f src' r : bytes_ok (cur_data src) -> npy_new c src = (Ok f, src') -> npy_data c t f = DOk r ->
  exists rd, (wf_dtype (h_dtype (nf_header f)) /\ h_n_records (nf_header f) < 2 ^ 64
    /\ reader c t (h_dtype (nf_header f)) = DOk rd /\ h_item_size (nf_header f) = Some (size (h_dtype (nf_header f))))
  /\ r = {| nr_header := nf_header f; nr_type := rd; nr_src := nf_src f; nr_index := 0 |}.
Proof.
  intros Hb Hf Hr. pose proof (opened _ _ _ _ Hb Hf) as (Hw & Hn & Hk). apply npy_new_inv in Hf as (_ & _ & d & shape & o & Hp).
  unfold npy_data in Hr. destruct (h_pickled (nf_header f)) eqn:Ek; [ discriminate | ].
  destruct (reader c t (h_dtype (nf_header f))) as [ rd | e ] eqn:Er; [ | discriminate ]. exists rd. split; [ | now injection Hr as <- ].
  split; [ auto | split; [ auto | split; [ auto | ] ] ]. pose proof (from_parts_ok _ _ _ _ _ Hp) as (Hd & _).
  subst d. apply (from_parts_item_size _ _ _ _ _ Hp). intros Ho. apply pickled_exact in Ho. congruence.
Qed.
Lemma data_opens c t src f src' r : strings_fit (c_usize_max c) (h_dtype (nf_header f)) -> bytes_ok (cur_data src) -> npy_new c src = (Ok f, src') -> npy_data c t f = DOk r ->
  exists rd, opens c t f rd /\ r = {| nr_header := nf_header f; nr_type := rd; nr_src := nf_src f; nr_index := 0 |}.
Proof. intros Hfit Hb Hf Hr. destruct (data_opened _ _ _ _ _ _ Hb Hf Hr) as (rd & (H1 & H2 & H3 & H4) & ->). exists rd. repeat split; auto. Qed.

(** * One item *)
Lemma stored_nth t d : forall blocks items, stored t d blocks items -> forall i x, nth_error items i = Some x ->
  exists b, lenN b = size d /\ bytes_ok b /\ decode t d b = x
  /\ List.concat blocks = List.concat (firstn i blocks) ++ b ++ List.concat (skipn (S i) blocks)
  /\ lenN (List.concat (firstn i blocks)) = N.of_nat i * size d.
Proof.
  induction 1 as [ | b v blocks items (Hl & Hb & Hd) H IH ]; intros [ | i ] x Hx; try discriminate Hx.
  - injection Hx as <-. exists b. cbn [firstn skipn List.concat app]. rewrite lenN_nil. repeat split; auto.
  - cbn [nth_error] in Hx. apply IH in Hx as (b' & Hl' & Hb' & Hd' & Hc & Hn). exists b'. cbn [firstn skipn List.concat]. repeat split; auto.
    + rewrite Hc at 1. now rewrite <- app_assoc.
    + rewrite lenN_app, Hl, Hn. lia.
Qed.
Lemma stored_len t d blocks items : stored t d blocks items -> lenN (List.concat blocks) = lenN items * size d /\ bytes_ok (List.concat blocks).
Proof.
  induction 1 as [ | b v blocks items (Hl & Hb & Hd) H (IH & IH') ]; cbn [List.concat]; [ split; [ reflexivity | constructor ] | ].
  rewrite lenN_app, lenN_cons, Hl, IH. split; [ lia | now apply Forall_app ].
Qed.

Definition consumes (c : cfg) (d : dtype) (rd : treader) : Prop :=
  forall bs rest, lenN bs = size d -> bytes_ok bs -> snd (run (read_one c rd) (bs ++ rest)) = rest.

Lemma split_at {A} (x y a b : list A) : x ++ y = a ++ b -> lenN a <= lenN x -> exists w, x = a ++ w /\ b = w ++ y.
Proof.
  intros H Hl. exists (dropN (lenN a) x). pose proof (takeN_dropN (lenN a) x) as E.
  rewrite <- E, <- app_assoc in H. assert (L : lenN (takeN (lenN a) x) = lenN a) by (rewrite lenN_takeN; lia).
  apply app_inj_lenN in H as (H1 & H2); auto. split; [ now rewrite <- H1 at 1 | auto ].
Qed.

Lemma item_read c t f rd blocks items avail missing more i :
  opens c t f rd -> stored t (h_dtype (nf_header f)) blocks items -> avail ++ missing = List.concat blocks ++ more -> i < lenN items ->
  let sz := size (h_dtype (nf_header f)) in
  match run (read_one c rd) (dropN (i * sz) avail) with
  | (Ok v, rest) => nth_error items (N.to_nat i) = Some (Some v) /\ (i + 1) * sz <= lenN avail /\ rest = dropN ((i + 1) * sz) avail
  | (Err _, rest) =>
    (nth_error items (N.to_nat i) = Some None /\ (i + 1) * sz <= lenN avail
     /\ (consumes c (h_dtype (nf_header f)) rd -> rest = dropN ((i + 1) * sz) avail))
    \/ (lenN avail < (i + 1) * sz /\ ((exists v, nth_error items (N.to_nat i) = Some (Some v)) -> rest = []))
  | (Panic, _) => False
  end.
Proof.
  intros (Hw & _ & Hr & _ & Hfit) Hs Ha Hi sz. destruct (nth_error_lenN items (N.to_nat i)) as (x & Hx); [ lia | ].
  destruct (stored_nth _ _ _ _ Hs _ _ Hx) as (b & Hl & Hb & Hd & Hc & Hn). rewrite N2Nat.id in Hn. fold sz in Hl, Hn. rewrite Hc in Ha.
  set (before := List.concat (firstn (N.to_nat i) blocks)) in *. set (after := List.concat (skipn (S (N.to_nat i)) blocks)) in *.
  destruct (N.le_gt_cases ((i + 1) * sz) (lenN avail)) as [ Hle | Hgt ].
  - rewrite <- !app_assoc in Ha. apply split_at in Ha as (w & -> & Ha); [ | rewrite Hn; lia ].
    symmetry in Ha. apply split_at in Ha as (w' & -> & Ha); [ | rewrite lenN_app in Hle; lia ].
    replace (dropN ((i + 1) * sz) (before ++ b ++ w')) with w'
      by (rewrite app_assoc, dropN_app; auto; rewrite lenN_app; lia).
    rewrite dropN_app by auto.
    pose proof (reads_all c t _ Hw rd Hr b w' Hl Hb) as [ (H & _) | H ]; [ contradiction | ]. rewrite Hd in H. destruct x as [ v | ].
    + rewrite H. auto.
    + destruct H as (e & rest & H). rewrite H. left. repeat split; auto. intros Hcons. specialize (Hcons b w' Hl Hb). now rewrite H in Hcons.
  - destruct (N.le_gt_cases (lenN before) (lenN avail)) as [ Hle | Hlt ].
    + rewrite <- !app_assoc in Ha. apply split_at in Ha as (w & -> & Ha); auto. rewrite dropN_app by auto.
      symmetry in Ha. rewrite lenN_app in Hgt. symmetry in Ha. apply split_at in Ha as (w' & -> & Ha); [ | lia ].
      assert (Hbw : bytes_ok w) by (now apply Forall_app in Hb).
      pose proof (read_one_total c t _ rd Hw Hr w Hbw) as H. pose proof (run_prefix (read_one c rd) w w') as Hp.
      destruct (run (read_one c rd) w) as ([ v | e | ], rest).
      * destruct H as (bs & -> & Hbs & _). rewrite lenN_app in Hgt. fold sz in Hbs. lia.
      * right. split; [ rewrite lenN_app; lia | ]. intros (v & Hv). rewrite Hx in Hv. injection Hv as ->.
        destruct Hp as [ Hp | Hp ]; auto. pose proof (reads_all c t _ Hw rd Hr _ [] Hl Hb) as [ (H' & _) | H' ]; [ contradiction | ]. rewrite Hd in H'.
        rewrite app_nil_r in H'. rewrite H' in Hp. discriminate.
      * contradiction.
    + rewrite dropN_all by lia.
      pose proof (read_one_total c t _ rd Hw Hr [] (Forall_nil _)) as H. pose proof (run_suffix (read_one c rd) []) as Hsuf.
      destruct (run (read_one c rd) []) as ([ v | e | ], rest).
      * destruct H as (bs & E & Hbs & _). symmetry in E. apply app_eq_nil in E as (-> & ->). rewrite lenN_nil in Hbs. fold sz in Hbs. nia.
      * right. split; auto. intros _. destruct (Hsuf _ _ eq_refl) as (u & E). symmetry in E. now apply app_eq_nil in E.
      * contradiction.
Qed.

(** * The reader at a position *)
Definition at_pos (f : npy_file) (rd : treader) (pos : N) : npy_reader :=
  {| nr_header := nf_header f; nr_type := rd;
     nr_src := {| cur_data := cur_data (nf_src f); cur_pos := cur_pos (nf_src f) + pos * size (h_dtype (nf_header f)) |};
     nr_index := pos |}.
Lemma at_start f rd : {| nr_header := nf_header f; nr_type := rd; nr_src := nf_src f; nr_index := 0 |} = at_pos f rd 0.
Proof. unfold at_pos. rewrite N.mul_0_l, N.add_0_r. now destruct (nf_src f). Qed.
Lemma at_pos_rest f rd pos : cur_rest (nr_src (at_pos f rd pos)) = dropN (pos * size (h_dtype (nf_header f))) (cur_rest (nf_src f)).
Proof. unfold at_pos, cur_rest. cbn [nr_src cur_data cur_pos]. rewrite dropN_dropN. f_equal. lia. Qed.

(** Moving from one item to another. *)
Lemma i64_in c z : (- 2 ^ 63 <= z < 2 ^ 63)%Z -> i64_op c z = Ok z.
Proof. intros H. unfold i64_op. replace ((- 2 ^ 63 <=? z) && (z <? 2 ^ 63))%Z with true by (symmetry; apply andb_true_iff; lia). reflexivity. Qed.
Lemma wrap_i64_eq z : exists k, wrap_i64 z = (z - k * 2 ^ 64)%Z.
Proof.
  unfold wrap_i64. exists ((z + 2 ^ 63) / 2 ^ 64)%Z. pose proof (Z.div_mod (z + 2 ^ 63) (2 ^ 64)) as H. specialize (H ltac:(lia)). lia.
Qed.
Lemma as_i64_eq n : exists k, as_i64 n = (Z.of_N n - k * 2 ^ 64)%Z.
Proof. unfold as_i64. destruct (n <? 2 ^ 63); [ exists 0%Z | exists 1%Z ]; lia. Qed.
Lemma as_i64_small n : n < 2 ^ 63 -> as_i64 n = Z.of_N n.
Proof. intros H. unfold as_i64. now replace (n <? 2 ^ 63) with true by lia. Qed.

Lemma seek_moves c t f rd i pos : opens c t f rd -> addressable c f -> i <= h_n_records (nf_header f) -> pos <= h_n_records (nf_header f) ->
  nr_seek_to c i (at_pos f rd pos) = (Ok tt, at_pos f rd i).
Proof.
  intros (_ & Hn & _ & Hs & _) (_ & Ha & Hc) Hi Hp. unfold nr_seek_to, nr_total_len. cbn [nr_header nr_index nr_src nr_type at_pos].
  set (n := h_n_records (nf_header f)) in *. set (sz := size (h_dtype (nf_header f))) in *.
  replace (n <? i) with false by lia. rewrite Hs. destruct (N.lt_ge_cases n (2 ^ 63)) as [ Hn' | Hn' ].
  - rewrite !as_i64_small by lia. rewrite i64_in by lia. destruct (Z.eqb_spec (Z.of_N i - Z.of_N pos) 0) as [ E | E ].
    + assert (i = pos) by lia. now subst.
    + assert (Hsz : sz <= n * sz) by nia. rewrite as_i64_small by lia.
      assert (Hb : ((Z.of_N i - Z.of_N pos) * Z.of_N sz = Z.of_N (i * sz) - Z.of_N (pos * sz))%Z) by lia.
      assert (i * sz <= n * sz) by nia. assert (pos * sz <= n * sz) by nia.
      rewrite i64_in by lia. unfold cur_seek. cbn [cur_pos cur_data]. rewrite Hb.
      replace (((Z.of_N (cur_pos (nf_src f) + pos * sz) + (Z.of_N (i * sz) - Z.of_N (pos * sz)) <? 0) ||
         (2 ^ 64 <=? Z.of_N (cur_pos (nf_src f) + pos * sz) + (Z.of_N (i * sz) - Z.of_N (pos * sz))))%Z) with false by lia.
      unfold at_pos. fold sz. do 4 f_equal. lia.
  - assert (sz = 0) by nia. destruct Hc as [ Hc | Hc ]; [ | lia ].
    destruct (as_i64_eq i) as (k1 & E1), (as_i64_eq pos) as (k2 & E2).
    assert (Ed : exists k, i64_op c (as_i64 i - as_i64 pos) = Ok (Z.of_N i - Z.of_N pos - k * 2 ^ 64)%Z).
    { unfold i64_op. rewrite Hc, E1, E2. match goal with |- context [wrap_i64 ?z] => destruct (wrap_i64_eq z) as (k3 & E3) end. rewrite E3.
      destruct (_ && _)%bool; [ exists (k1 - k2)%Z | exists (k1 - k2 + k3)%Z ]; f_equal; lia. }
    destruct Ed as (k & ->). destruct (Z.eqb_spec (Z.of_N i - Z.of_N pos - k * 2 ^ 64) 0) as [ E | E ].
    + assert (i = pos) by lia. now subst.
    + replace (as_i64 sz) with 0%Z by (rewrite H; reflexivity). rewrite Z.mul_0_r, i64_in by lia. unfold cur_seek. cbn [cur_pos cur_data].
      rewrite H. rewrite !N.mul_0_r, N.add_0_r, Z.add_0_r.
      replace (((Z.of_N (cur_pos (nf_src f)) <? 0) || (2 ^ 64 <=? Z.of_N (cur_pos (nf_src f))))%Z) with false by lia.
      rewrite N2Z.id. unfold at_pos. fold sz. rewrite H, N.mul_0_r, N.add_0_r. reflexivity.
Qed.

Definition read_obs (x : res val) : obs := match x with Ok v => OItem v | Err _ => OError | Panic => OPanicked end.

(** [next] at a position inside the array. *)
Lemma next_step c t f rd blocks items missing more pos :
  opens c t f rd -> stored t (h_dtype (nf_header f)) blocks items -> cur_rest (nf_src f) ++ missing = List.concat blocks ++ more ->
  lenN items = h_n_records (nf_header f) -> pos < lenN items ->
  exists x r', nr_next c (at_pos f rd pos) = (Some x, r') /\
    ((read_obs x = item_obs items pos /\ r' = at_pos f rd (pos + 1))
     \/ (read_obs x = OError
         /\ ((exists j, nth_error items j = Some None) /\ ~ consumes c (h_dtype (nf_header f)) rd
             \/ lenN (cur_rest (nf_src f)) < (pos + 1) * size (h_dtype (nf_header f))))).
Proof.
  intros Ho Hs Hd Hn Hp. unfold nr_next, nr_total_len. cbn [nr_header nr_index nr_type at_pos]. rewrite <- Hn.
  replace (pos <? lenN items) with true by lia. unfold run_cursor. fold (at_pos f rd pos).
  change (cur_rest {| cur_data := cur_data (nf_src f); cur_pos := cur_pos (nf_src f) + pos * size (h_dtype (nf_header f)) |})
    with (cur_rest (nr_src (at_pos f rd pos))). rewrite at_pos_rest.
  pose proof (item_read c t f rd blocks items _ _ _ pos Ho Hs Hd Hp) as H. cbn zeta in H.
  set (sz := size (h_dtype (nf_header f))) in *. set (D := cur_rest (nf_src f)) in *.
  assert (Hpos : (pos + 1) * sz <= lenN D ->
    {| nr_header := nf_header f; nr_type := rd;
       nr_src := {| cur_data := cur_data (nf_src f);
                    cur_pos := cur_pos (nf_src f) + pos * sz + (lenN (dropN (pos * sz) D) - lenN (dropN ((pos + 1) * sz) D)) |};
       nr_index := pos + 1 |} = at_pos f rd (pos + 1)).
  { intros Hle. unfold at_pos. fold sz. do 2 f_equal. rewrite !lenN_dropN. nia. }
  cbn [cur_data cur_pos]. destruct (run (read_one c rd) (dropN (pos * sz) D)) as ([ v | e | ], rest).
  - destruct H as (Hx & Hle & ->). eexists _, _. split; [ reflexivity | ]. left. cbn [read_obs]. unfold item_obs. rewrite Hx. auto.
  - eexists _, _. split; [ reflexivity | ]. cbn [read_obs]. destruct H as [ (Hx & Hle & Hc) | (Hlt & _) ]; [ | right; auto ].
    destruct (list_eq_dec N.eq_dec rest (dropN ((pos + 1) * sz) D)) as [ -> | Hne ].
    + left. unfold item_obs. rewrite Hx. auto.
    + right. split; auto. left. split; eauto.
  - destruct H.
Qed.

Lemma actual_step c t f rd blocks items missing more k pos :
  opens c t f rd -> addressable c f -> stored t (h_dtype (nf_header f)) blocks items ->
  cur_rest (nf_src f) ++ missing = List.concat blocks ++ more ->
  lenN items = h_n_records (nf_header f) -> pos <= lenN items ->
  (actual_call c k (at_pos f rd pos) = (fst (ideal_call (c_usize_max c) items k pos), at_pos f rd (snd (ideal_call (c_usize_max c) items k pos)))
   /\ snd (ideal_call (c_usize_max c) items k pos) <= lenN items)
  \/ (fst (actual_call c k (at_pos f rd pos)) = OError
      /\ ((exists j, nth_error items j = Some None) /\ ~ consumes c (h_dtype (nf_header f)) rd
          \/ lenN (cur_rest (nf_src f)) < lenN items * size (h_dtype (nf_header f)))).
Proof.
  intros Ho Ha Hs Hd Hn Hp. destruct k as [ | i | i | | ]; cbn [actual_call ideal_call].
  - destruct (N.ltb_spec pos (lenN items)) as [ Hlt | Hge ].
    + destruct (next_step c t f rd blocks items missing more pos Ho Hs Hd Hn Hlt) as (x & r' & -> & H). cbn [fst snd].
      change (match x with Ok v => OItem v | Err _ => OError | Panic => OPanicked end) with (read_obs x).
      destruct H as [ (-> & ->) | (H1 & H2) ]; [ left; split; auto; lia | right; split; auto ].
      destruct H2; auto. right. nia.
    + left. unfold nr_next, nr_total_len. cbn [nr_header nr_index at_pos]. replace (pos <? h_n_records (nf_header f)) with false by lia. auto.
  - destruct (N.leb_spec i (lenN items)) as [ Hle | Hgt ].
    + rewrite (seek_moves c t) by (auto; lia). left. auto.
    + unfold nr_seek_to, nr_total_len. cbn [nr_header at_pos]. replace (h_n_records (nf_header f) <? i) with true by lia. left. auto.
  - unfold nr_read_at, nr_total_len. cbn [nr_header at_pos]. destruct (N.ltb_spec i (lenN items)) as [ Hlt | Hge ].
    + replace (h_n_records (nf_header f) <=? i) with false by lia. fold (at_pos f rd pos). rewrite (seek_moves c t) by (auto; lia).
      destruct (next_step c t f rd blocks items missing more i Ho Hs Hd Hn Hlt) as (x & r' & -> & H). cbn [fst snd].
      change (match x with Ok v => OItem v | Err _ => OError | Panic => OPanicked end) with (read_obs x).
      destruct H as [ (-> & ->) | (H1 & H2) ]; [ left; split; auto; lia | right; split; auto ].
      destruct H2; auto. right. nia.
    + replace (h_n_records (nf_header f) <=? i) with true by lia. left. auto.
  - unfold nr_len, nr_total_len. cbn [nr_header nr_index at_pos]. rewrite <- Hn. replace (pos <=? lenN items) with true by lia. left. auto.
  - unfold nr_size_hint, nr_len, nr_total_len. cbn [nr_header nr_index at_pos]. rewrite <- Hn. replace (pos <=? lenN items) with true by lia.
    cbn [bind]. left. destruct (N.ltb_spec (c_usize_max c) (lenN items - pos)).
    + replace (lenN items - pos <=? c_usize_max c) with false by lia. auto.
    + replace (lenN items - pos <=? c_usize_max c) with true by lia. auto.
Qed.

Lemma histories_gen c t f rd blocks items missing more :
  opens c t f rd -> addressable c f -> stored t (h_dtype (nf_header f)) blocks items ->
  cur_rest (nf_src f) ++ missing = List.concat blocks ++ more -> lenN items = h_n_records (nf_header f) ->
  forall ks pos, pos <= lenN items ->
  agree_until_error (actual c ks (at_pos f rd pos)) (ideal (c_usize_max c) items ks pos)
  /\ ((Forall (fun x => x <> None) items \/ consumes c (h_dtype (nf_header f)) rd) ->
      lenN items * size (h_dtype (nf_header f)) <= lenN (cur_rest (nf_src f)) ->
      actual c ks (at_pos f rd pos) = ideal (c_usize_max c) items ks pos).
Proof.
  intros Ho Ha Hs Hd Hn. induction ks as [ | k ks IH ]; intros pos Hp; cbn [actual ideal]; [ now split | ].
  pose proof (actual_step c t f rd blocks items missing more k pos Ho Ha Hs Hd Hn Hp) as H.
  destruct (ideal_call (c_usize_max c) items k pos) as (o, pos') eqn:E. cbn [fst snd] in H. destruct H as [ (-> & Hp') | (He & H) ].
  - destruct (IH pos' Hp') as (IH1 & IH2). split.
    + cbn [agree_until_error]. destruct o; auto.
    + intros Hk Hl. f_equal. auto.
  - destruct (actual_call c k (at_pos f rd pos)) as (o', r'). cbn [fst] in He. subst o'. split; [ exact I | ].
    intros Hk Hl. exfalso. destruct H as [ ((j & Hj) & Hc) | H ]; [ | lia ]. destruct Hk; auto.
    rewrite Forall_forall in H. apply nth_error_In in Hj. now apply (H _ Hj).
Qed.

Lemma complete_histories c t src f src' r items : bytes_ok (cur_data src) -> npy_new c src = (Ok f, src') -> npy_data c t f = DOk r ->
  complete_file t f items -> addressable c f ->
  Forall (fun x => x <> None) items \/ (forall rd, opens c t f rd -> consumes c (h_dtype (nf_header f)) rd) ->
  forall ks, actual c ks r = ideal (c_usize_max c) items ks 0.
Proof.
  intros Hb Hf Hr (blocks & more & Hd & Hs & Hn) Ha Hk ks. destruct (data_opens _ _ _ _ _ _ (proj1 Ha) Hb Hf Hr) as (rd & Ho & ->). rewrite at_start.
  pose proof (stored_len _ _ _ _ Hs) as (Hl & _).
  apply (histories_gen c t f rd blocks items [] more Ho Ha Hs); auto; try lia.
  - now rewrite app_nil_r.
  - destruct Hk; auto.
  - rewrite Hd, lenN_app. lia.
Qed.

(** * Types that fetch the item first *)
Lemma numeric_consumes c t d rd : wf_dtype d -> reader c t d = DOk rd -> numeric t -> consumes c d rd.
Proof.
  intros Hw Hr Hnum bs rest Hl Hb.
  assert (Hacc : accepts (c_usize_max c) Reading t d) by (apply reader_accepts; eauto).
  pose proof (reads_all c t d Hw rd Hr bs rest Hl Hb) as [ (H & _) | H ]; [ now destruct (H (numeric_fits _ _ _ _ _ Hnum Hacc)) | ].
  destruct (numeric_total t _ d bs Hnum Hacc Hl Hb) as (v & Hv & _). rewrite Hv in H. now rewrite H.
Qed.
Lemma whole_consumes c t d rd : wf_dtype d -> strings_fit (c_usize_max c) d -> reader c t d = DOk rd -> whole_item t d -> consumes c d rd.
Proof.
  intros Hw Hfit Hr [ Hnum | H ]; [ eapply numeric_consumes; eauto | ]. intros bs rest Hl Hb.
  pose proof (reads_all c t d Hw rd Hr bs rest Hl Hb) as [ (Hrun & _) | Hrun ]; [ contradiction | ].
  assert (Hacc : accepts (c_usize_max c) Reading t d) by (apply reader_accepts; eauto).
  assert (Hex : forall n, lenN bs = n -> run (read_exact n) (bs ++ rest) = (Ok bs, rest)) by (intros; now apply run_read_exact).
  assert (Hvec : forall ts, d = DPlain ts -> ts_char ts = TByteStr -> lenN bs = ts_size ts -> run (read_vec c (ts_size ts)) (bs ++ rest) = (Ok bs, rest)).
  { intros ts -> Hc Hn. unfold read_vec. destruct (N.ltb_spec (isize_max c) (ts_size ts)) as [ Hlt | _ ]; [ | now apply Hex ].
    destruct (too_long c ts (ts_size ts) (or_introl Hc) (N.le_refl _) Hlt Hfit). }
  destruct t; try (now destruct H); destruct d as [ ts | | ]; try (now destruct H); try (now destruct Hacc); cbn [size] in Hl; unfold scalar_size in Hl;
    destruct Hacc as (Hacc & _).
  - destruct Hacc as (Hm & Hc). rewrite Hc, Hm in Hl. cbn [reader] in Hr. apply dbind_ok in Hr as (sw & _ & [= <-]).
    cbn [read_one read_prim]. rewrite run_bind, Hex by auto. cbn [then_]. now destruct (2 <=? _).
  - destruct (decode RVecU8 (DPlain ts) bs) eqn:E; [ now rewrite Hrun | discriminate E ].
  - destruct (decode (RFixedBytes n) (DPlain ts) bs) eqn:E; [ now rewrite Hrun | discriminate E ].
  - destruct (decode (RArrU8 n) (DPlain ts) bs) eqn:E; [ now rewrite Hrun | discriminate E ].
  - apply string_reader_ok in Hr as (ts' & [= <-] & Hm & [ (Hc & ->) | (Hc & ->) ]); [ cbn in H; congruence | ]. rewrite Hc in Hl.
    cbn [read_one]. rewrite run_bind, (Hvec ts eq_refl Hc Hl). cbn [then_]. now destruct (from_utf8 _).
  - apply array_string_reader_ok in Hr as (ts' & [= <-] & Hm & Hc & ->). rewrite Hc in Hl.
    cbn [read_one]. rewrite run_bind, (Hvec ts eq_refl Hc Hl). cbn [then_]. now destruct (from_utf8 _).
Qed.

(** * Whole arrays *)
Lemma collect_run c hd rd : forall fuel src idx, idx <= h_n_records hd -> h_n_records hd - idx < N.of_nat fuel ->
  let p := run_cursor (rreplicate (N.to_nat (h_n_records hd - idx)) (read_one c rd)) src in
  let q := nr_collect c fuel {| nr_header := hd; nr_type := rd; nr_src := src; nr_index := idx |} in
  fst q = fst p /\ nr_src (snd q) = snd p.
Proof.
  induction fuel as [ | fuel IH ]; intros src idx Hi Hf; [ lia | ]. cbn zeta. cbn [nr_collect].
  unfold nr_next, nr_total_len. cbn [nr_header nr_index nr_type nr_src]. destruct (N.ltb_spec idx (h_n_records hd)) as [ Hlt | Hge ].
  - replace (N.to_nat (h_n_records hd - idx)) with (S (N.to_nat (h_n_records hd - (idx + 1)))) by lia.
    specialize (IH (snd (run_cursor (read_one c rd) src)) (idx + 1) ltac:(lia) ltac:(lia)). cbn zeta in IH.
    assert (E : run_cursor (rreplicate (S (N.to_nat (h_n_records hd - (idx + 1)))) (read_one c rd)) src =
      match run_cursor (read_one c rd) src with
      | (Ok v, src') => let '(x, s) := run_cursor (rreplicate (N.to_nat (h_n_records hd - (idx + 1))) (read_one c rd)) src' in
                        ((let* vs := x in Ok (v :: vs)), s)
      | (Err e, src') => (Err e, src')
      | (Panic, src') => (Panic, src')
      end).
    { unfold run_cursor at 1. rewrite run_rreplicate_S. unfold run_cursor at 1.
      destruct (run (read_one c rd) (cur_rest src)) as ([ v | e | ], rest) eqn:Er; cbn [then_]; auto.
      unfold run_cursor. apply run_suffix in Er as (used & Hu).
      assert (Hrest : cur_rest {| cur_data := cur_data src; cur_pos := cur_pos src + (lenN (cur_rest src) - lenN rest) |} = rest).
      { unfold cur_rest at 1. cbn [cur_data cur_pos]. rewrite N.add_comm, <- dropN_dropN. fold (cur_rest src). rewrite Hu at 2.
        apply dropN_app. rewrite Hu, lenN_app. lia. }
      rewrite Hrest. cbn [cur_data cur_pos]. destruct (run (rreplicate _ _) rest) as ([ vs | e | ], rest') eqn:Er'; cbn [then_];
        apply run_suffix in Er' as (u & Hu'); do 2 f_equal; rewrite Hu, Hu', !lenN_app; lia. }
    rewrite E. clear E. destruct (run_cursor (read_one c rd) src) as ([ v | e | ], src'); cbn [fst snd] in *; auto.
    destruct IH as (IH1 & IH2). destruct (nr_collect c fuel _) as (x, r'). destruct (run_cursor _ src') as (y, s). cbn [fst snd] in *. now subst.
  - replace (h_n_records hd - idx) with 0 by lia. change (N.to_nat 0) with 0%nat. cbn [rreplicate]. unfold run_cursor. cbn [run fst snd nr_src].
    split; auto. rewrite N.sub_diag, N.add_0_r. now destruct src.
Qed.

Lemma into_vec_run c t f r : npy_data c t f = DOk r ->
  npy_into_vec c t f = run_cursor (rreplicate (N.to_nat (h_n_records (nf_header f))) (read_one c (nr_type r))) (nf_src f).
Proof.
  intros Hr. unfold npy_into_vec. rewrite Hr. unfold npy_data in Hr. destruct (h_pickled _); [ discriminate | ].
  destruct (reader c t _) as [ rd | ]; [ | discriminate ]. injection Hr as <-. cbn [nr_type].
  pose proof (collect_run c (nf_header f) rd (S (N.to_nat (h_n_records (nf_header f)))) (nf_src f) 0 ltac:(lia) ltac:(lia)) as (H1 & H2).
  rewrite N.sub_0_r in *. destruct (nr_collect _ _ _) as (x, r'). destruct (run_cursor _ _) as (y, s). cbn [fst snd] in *. now subst.
Qed.

(** Reading the whole array of a (possibly truncated) file. *)
Lemma replicate_read c t f rd blocks items avail missing more :
  opens c t f rd -> stored t (h_dtype (nf_header f)) blocks (map Some items) -> avail ++ missing = List.concat blocks ++ more ->
  let sz := size (h_dtype (nf_header f)) in
  forall k i, i + N.of_nat k <= lenN items ->
  match run (rreplicate k (read_one c rd)) (dropN (i * sz) avail) with
  | (Ok vs, rest) => vs = firstn k (skipn (N.to_nat i) items) /\ rest = dropN ((i + N.of_nat k) * sz) avail
                     /\ (k <> O -> (i + N.of_nat k) * sz <= lenN avail)
  | (Err _, rest) => lenN avail < (i + N.of_nat k) * sz
  | (Panic, _) => False
  end.
Proof.
  intros Ho Hs Ha sz. induction k as [ | k IH ]; intros i Hi.
  - cbn [rreplicate run firstn]. rewrite N.add_0_r. split; [ reflexivity | ]. split; [ reflexivity | congruence ].
  - rewrite run_rreplicate_S. pose proof (item_read c t f rd blocks (map Some items) _ _ _ i Ho Hs Ha) as H. fold sz in H.
    specialize (H ltac:(rewrite lenN_map; lia)). cbn zeta in H. destruct (run (read_one c rd) (dropN (i * sz) avail)) as ([ v | e | ], rest); cbn [then_].
    + destruct H as (Hv & Hle & ->). specialize (IH (i + 1) ltac:(lia)).
      rewrite nth_error_map in Hv. destruct (nth_error items (N.to_nat i)) as [ v' | ] eqn:Ev; [ | discriminate ]. injection Hv as ->.
      assert (Hsk : skipn (N.to_nat i) items = v :: skipn (N.to_nat (i + 1)) items).
      { replace (N.to_nat (i + 1)) with (S (N.to_nat i)) by lia. clear -Ev. revert items Ev. induction (N.to_nat i) as [ | m IH ]; intros [ | y l ] E; try discriminate E.
        - injection E as ->. reflexivity.
        - cbn [nth_error] in E. cbn [skipn]. now apply IH. }
      destruct (run (rreplicate k (read_one c rd)) _) as ([ vs | e | ], rest'); cbn [then_]; auto.
      * destruct IH as (-> & -> & Hle'). rewrite Hsk. cbn [firstn]. split; [ reflexivity | ].
        replace (i + N.of_nat (S k)) with (i + 1 + N.of_nat k) by lia. split; [ reflexivity | ]. intros _. destruct k; [ | now apply Hle' ].
        now rewrite N.add_0_r.
      * replace (i + N.of_nat (S k)) with (i + 1 + N.of_nat k) by lia. exact IH.
    + destruct H as [ (Hx & _) | (Hlt & _) ].
      * rewrite nth_error_map in Hx. destruct (nth_error items _); discriminate.
      * nia.
    + destruct H.
Qed.

Lemma into_vec_complete c t src f src' r items : strings_fit (c_usize_max c) (h_dtype (nf_header f)) -> bytes_ok (cur_data src) -> npy_new c src = (Ok f, src') -> npy_data c t f = DOk r ->
  complete_file t f (map Some items) -> fst (npy_into_vec c t f) = Ok items.
Proof.
  intros Hfit Hb Hf Hr (blocks & more & Hd & Hs & Hn). rewrite (into_vec_run c t f r Hr). destruct (data_opens _ _ _ _ _ _ Hfit Hb Hf Hr) as (rd & Ho & ->).
  cbn [nr_type]. unfold run_cursor. rewrite lenN_map in Hn.
  pose proof (replicate_read c t f rd blocks items (cur_rest (nf_src f)) [] more Ho Hs ltac:(now rewrite app_nil_r)
    (N.to_nat (h_n_records (nf_header f))) 0 ltac:(lia)) as H. cbn zeta in H. rewrite N.mul_0_l, dropN_0 in H.
  pose proof (stored_len _ _ _ _ Hs) as (Hl & _). rewrite lenN_map in Hl.
  destruct (run _ (cur_rest (nf_src f))) as ([ vs | e | ], rest); cbn [fst].
  - destruct H as (-> & _). cbn [N.to_nat skipn]. rewrite firstn_all2; auto. unfold lenN in Hn. lia.
  - rewrite Hd, lenN_app, Hl in H. rewrite N2Nat.id, Hn in H. lia.
  - destruct H.
Qed.

(** * Truncated files *)
Lemma new_on_prefix c p q h data : run (read_and_interpret c) (p ++ q) = (Ok h, data) ->
  match npy_new c {| cur_data := p; cur_pos := 0 |} with
  | (Ok f, _) => nf_header f = h /\ data = cur_rest (nf_src f) ++ q
  | (Err _, _) => True
  | (Panic, _) => False
  end.
Proof.
  intros H. unfold npy_new, run_cursor. change (cur_rest {| cur_data := p; cur_pos := 0 |}) with p.
  pose proof (run_prefix (read_and_interpret c) p q) as Hp.
  destruct (run (read_and_interpret c) p) as ([ h' | e | ], rest) eqn:E; auto.
  - cbn [nf_header nf_src]. rewrite H in Hp. apply pair_inj in Hp as (Hh & Hd). apply Ok_inj in Hh as ->. split; auto. rewrite Hd. f_equal.
    apply run_suffix in E as (u & ->). unfold cur_rest. cbn [cur_data cur_pos]. rewrite N.add_0_l. symmetry. apply dropN_app. rewrite lenN_app. lia.
  - rewrite H in Hp. discriminate.
Qed.

(** Calling [next] again and again, also after an error. *)
Lemma nexts_gen c t f rd blocks items missing :
  opens c t f rd -> stored t (h_dtype (nf_header f)) blocks (map Some items) -> cur_rest (nf_src f) ++ missing = List.concat blocks ->
  lenN items = h_n_records (nf_header f) ->
  forall k r pos, pos <= lenN items -> nr_index r = pos -> nr_header r = nf_header f -> nr_type r = rd ->
  (r = at_pos f rd pos \/ (cur_rest (nr_src r) = [] /\ 0 < size (h_dtype (nf_header f)))) ->
  forall j v, nth_error (actual c (repeat CNext k) r) j = Some (OItem v) -> nth_error items (N.to_nat pos + j) = Some v.
Proof.
  intros Ho Hs Hd Hn. induction k as [ | k IH ]; intros r pos Hp Hi Hh Ht Hr j v Hj; [ now destruct j | ].
  cbn [repeat actual] in Hj. destruct (actual_call c CNext r) as (o, r') eqn:Ec.
  assert (G : nr_header r' = nf_header f /\ nr_type r' = rd /\
    ((pos < lenN items /\ nr_index r' = pos + 1 /\
       (r' = at_pos f rd (pos + 1) /\ (forall v, o = OItem v -> nth_error items (N.to_nat pos) = Some v)
        \/ cur_rest (nr_src r') = [] /\ 0 < size (h_dtype (nf_header f)) /\ forall v, o <> OItem v))
     \/ (pos = lenN items /\ r' = r /\ o = OEnd))).
  { cbn [actual_call] in Ec. unfold nr_next, nr_total_len in Ec. rewrite Hh, Hi, Ht, <- Hn in Ec.
    destruct (N.ltb_spec pos (lenN items)) as [ Hlt | Hge ].
    - destruct Hr as [ -> | (Hrest & Hz) ].
      + unfold run_cursor in Ec. rewrite at_pos_rest in Ec.
        pose proof (item_read c t f rd blocks (map Some items) (cur_rest (nf_src f)) missing [] pos Ho Hs) as H.
        rewrite app_nil_r in H. specialize (H Hd ltac:(rewrite lenN_map; auto)). cbn zeta in H.
        destruct (run (read_one c rd) _) as ([ v' | e | ], rest); [ | | now destruct H ];
          apply pair_inj in Ec as (<- & <-); cbn [nr_header nr_type nr_index nr_src]; split; auto; split; auto; left; split; auto; split; auto.
        * destruct H as (Hv & Hle & ->). left. rewrite nth_error_map in Hv. split.
          -- unfold at_pos. cbn [cur_data cur_pos]. do 2 f_equal. cbn [nr_src cur_pos]. rewrite !lenN_dropN. nia.
          -- intros v0 [= <-]. destruct (nth_error items (N.to_nat pos)); cbn in Hv; congruence.
        * right. destruct H as [ (Hv & _) | (Hlt' & Hrest) ].
          -- rewrite nth_error_map in Hv. destruct (nth_error items _); discriminate.
          -- destruct (nth_error_lenN items (N.to_nat pos)) as (v' & Hv); [ lia | ].
             rewrite Hrest by (exists v'; now rewrite nth_error_map, Hv). split; [ | split; [ nia | discriminate ] ].
             unfold cur_rest. cbn [cur_data cur_pos]. cbn [nr_src at_pos cur_data cur_pos]. apply dropN_all. rewrite lenN_nil, N.sub_0_r.
             unfold cur_rest. rewrite !lenN_dropN. lia.
      + unfold run_cursor in Ec. rewrite Hrest in Ec. destruct Ho as (Hw & _ & Hrd & _ & Hfit).
        pose proof (read_one_total c t _ rd Hw Hrd [] (Forall_nil _)) as H. pose proof (run_suffix (read_one c rd) []) as Hsuf.
        destruct (run (read_one c rd) []) as ([ v' | e | ], rest); [ | | contradiction ].
        * destruct H as (bs & E & Hbs & _). symmetry in E. apply app_eq_nil in E as (-> & ->). rewrite lenN_nil in Hbs. lia.
        * apply pair_inj in Ec as (<- & <-). cbn [nr_header nr_type nr_index nr_src]. split; auto. split; auto. left. split; auto. split; auto. right.
          split; [ | split; [ auto | discriminate ] ]. destruct (Hsuf _ _ eq_refl) as (u & E). symmetry in E. apply app_eq_nil in E as (_ & ->).
          rewrite N.sub_diag, N.add_0_r. unfold cur_rest in *. cbn [cur_data cur_pos]. exact Hrest.
    - apply pair_inj in Ec as (<- & <-). split; auto. split; auto. right. split; [ lia | auto ]. }
  destruct G as (Hh' & Ht' & [ (Hlt & Hi' & G) | (He & -> & ->) ]).
  - destruct j as [ | j ].
    + cbn [nth_error] in Hj. injection Hj as ->. rewrite Nat.add_0_r. destruct G as [ (_ & G) | (_ & _ & G) ]; auto. now destruct (G v).
    + cbn [nth_error] in Hj. replace (N.to_nat pos + S j)%nat with (N.to_nat (pos + 1) + j)%nat by lia.
      apply (IH r' (pos + 1)) with (j := j); auto; [ lia | ]. destruct G as [ (G & _) | (G & G' & _) ]; auto.
  - destruct j as [ | j ]; [ discriminate Hj | ]. cbn [nth_error] in Hj. specialize (IH r pos Hp Hi Hh Ht Hr j v Hj). exfalso.
    assert (nth_error items (N.to_nat pos + j) = None) by (apply nth_error_None; unfold lenN in He; lia). congruence.
Qed.
