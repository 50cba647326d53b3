(** Every sequence of calls on a reader: proofs. *)
From Verif Require Import M_Base M_Text M_TypeStr M_IO M_Header M_Read M_Serialize M_NpyReader.
From Verif Require Import S_Text S_TypeStr S_DType S_Shape S_Header S_Elem S_Strings S_Reader S_Fault S_Broken S_History.
From Verif Require Import P_Base P_Text P_TypeStr P_IO P_Header P_Elem P_ElemT P_Sizes P_ReadOne P_Reader P_Fault P_Broken.
Open Scope N_scope.

(** * One item *)
Lemma attempt_run c t d rd input s k : wf_dtype d -> strings_fit (c_usize_max c) d -> reader c t d = DOk rd -> bytes_ok input -> attempt t d input s k ->
  exists x rest, run (read_one c rd) input = (x, rest) /\ s = say_item x /\ k = lenN input - lenN rest.
Proof.
  intros Hw Hs Hr Hb [ b rest v -> Hl Hd | b rest msg -> Hu | Hl Hn ].
  - exists (Ok v), rest. apply Forall_app in Hb as (Hb & _). rewrite (item_value c t d rd b v rest Hw Hs Hr Hb Hl Hd).
    split; [ reflexivity | ]. split; [ reflexivity | ]. rewrite lenN_app. lia.
  - exists (Err (EData msg)), rest. split; [ apply (unreadable_exact c t d); auto; [ discriminate | eauto ] | ]. split; [ reflexivity | ]. rewrite lenN_app. lia.
  - exists (Err EUnexpectedEof), []. split; [ apply (cut_exact c t d); auto; split; [ auto | ]; intros (b & rest & msg & Hi & Hu); eapply Hn; eauto | ].
    split; [ reflexivity | ]. rewrite lenN_nil. lia.
Qed.
Lemma run_attempt c t d rd input x rest : wf_dtype d -> strings_fit (c_usize_max c) d -> reader c t d = DOk rd -> bytes_ok input ->
  run (read_one c rd) input = (x, rest) -> attempt t d input (say_item x) (lenN input - lenN rest).
Proof.
  intros Hw Hs Hr Hb E. pose proof (unreadable_sound c t d rd input Hw Hr Hb) as H. rewrite E in H. destruct x as [ v | e | ]; cbn [say_item].
  - destruct H as (b & -> & Hl & Hd). replace (lenN (b ++ rest) - lenN rest) with (size d) by (rewrite lenN_app; lia). now apply (attempt_item _ _ _ b rest).
  - destruct H as [ (-> & -> & Hl) | (b & msg & -> & -> & Hu) ].
    + rewrite lenN_nil, N.sub_0_r. apply (cut_exact c t d) in E as (_ & Hn); auto. apply attempt_cut; [ auto | ]. intros b rest msg Hi Hu. apply Hn. eauto.
    + replace (lenN (b ++ rest) - lenN rest) with (lenN b) by (rewrite lenN_app; lia). now apply (attempt_fault _ _ _ b rest).
  - contradiction.
Qed.
Lemma attempt_unique c t d rd input s k s' k' : wf_dtype d -> strings_fit (c_usize_max c) d -> reader c t d = DOk rd -> bytes_ok input ->
  attempt t d input s k -> attempt t d input s' k' -> s = s' /\ k = k'.
Proof.
  intros Hw Hs Hr Hb H1 H2. apply (attempt_run c t d rd) in H1 as (x & rest & E & -> & ->); auto. apply (attempt_run c t d rd) in H2 as (x' & rest' & E' & -> & ->); auto.
  rewrite E in E'. apply pair_inj in E' as (<- & <-). auto.
Qed.
Lemma attempt_at_most c t d rd input s k : wf_dtype d -> strings_fit (c_usize_max c) d -> reader c t d = DOk rd -> bytes_ok input -> attempt t d input s k ->
  k <= size d /\ k <= lenN input.
Proof.
  intros Hw Hs Hr Hb H. split; [ | destruct (attempt_run _ _ _ _ _ _ _ Hw Hs Hr Hb H) as (x & rest & _ & _ & ->); lia ].
  destruct H as [ b rest v -> Hl Hd | b rest msg -> Hu | Hl Hn ]; try lia.
  destruct (N.le_gt_cases (lenN b) (size d)) as [ | Hgt ]; [ auto | exfalso ].
  (* the first [size d] bytes decide already *)
  apply Forall_app in Hb as (Hb & _).
  assert (Hb1 : bytes_ok (takeN (size d) b)) by (apply Forall_takeN; exact Hb).
  assert (Hl1 : lenN (takeN (size d) b) = size d) by (rewrite lenN_takeN; lia).
  assert (E : run (read_one c rd) b = (Err (EData msg), [])) by (apply (unreadable_exact c t d); auto; [ discriminate | exists b, msg; now rewrite app_nil_r ]).
  destruct (one_unreadable c t d rd _ Hw Hs Hr Hb1 Hl1) as [ (v & Hd & _) | (_ & b1 & r1 & msg1 & Hsp & Hu1 & _) ].
  - pose proof (item_value c t d rd _ v (dropN (size d) b) Hw Hs Hr Hb1 Hl1 Hd) as E1. rewrite takeN_dropN in E1. rewrite E in E1. discriminate.
  - assert (E1 : run (read_one c rd) b = (Err (EData msg1), r1 ++ dropN (size d) b)).
    { apply (unreadable_exact c t d); auto; [ discriminate | ]. exists b1, msg1. rewrite app_assoc, <- Hsp, takeN_dropN. auto. }
    rewrite E in E1. apply pair_inj in E1 as (_ & E1). symmetry in E1. apply app_eq_nil in E1 as (_ & E1). apply (f_equal (@lenN _)) in E1.
    rewrite lenN_dropN, lenN_nil in E1. lia.
Qed.

(** * The reader at a place *)
Definition at_place (f : npy_file) (rd : treader) (a : place) : npy_reader :=
  {| nr_header := nf_header f; nr_type := rd; nr_src := {| cur_data := cur_data (nf_src f); cur_pos := snd a |}; nr_index := fst a |}.
(** The index is in range and the position not further than the item's. *)
Definition in_place (f : npy_file) (a : place) : Prop :=
  fst a <= h_n_records (nf_header f) /\ snd a <= cur_pos (nf_src f) + fst a * size (h_dtype (nf_header f)).

Lemma seek_place c t f rd i p j : opens c t f rd -> addressable c f -> in_place f (i, p) -> j <= h_n_records (nf_header f) ->
  let sz := size (h_dtype (nf_header f)) in
  nr_seek_to c j (at_place f rd (i, p)) =
    if p + j * sz <? i * sz then (Err EInvalidInput, at_place f rd (i, p)) else (Ok tt, at_place f rd (j, p + j * sz - i * sz)).
Proof.
  intros (_ & Hn & _ & Hs & _) (_ & Ha & Hc) (Hi & Hp) Hj sz. unfold nr_seek_to, nr_total_len. cbn [nr_header nr_index nr_src nr_type at_place fst snd] in *.
  set (n := h_n_records (nf_header f)) in *. fold sz in Ha, Hp, Hs.
  replace (n <? j) with false by lia. rewrite Hs. destruct (N.lt_ge_cases n (2 ^ 63)) as [ Hn' | Hn' ].
  - rewrite !as_i64_small by lia. rewrite i64_in by lia. destruct (Z.eqb_spec (Z.of_N j - Z.of_N i) 0) as [ E | E ].
    + assert (j = i) by lia. subst. replace (p + i * sz <? i * sz) with false by lia. now replace (p + i * sz - i * sz) with p by lia.
    + assert (Hsz : sz <= n * sz) by nia. rewrite as_i64_small by lia.
      assert (Hb : ((Z.of_N j - Z.of_N i) * Z.of_N sz = Z.of_N (j * sz) - Z.of_N (i * sz))%Z) by lia.
      assert (i * sz <= n * sz) by nia. assert (j * sz <= n * sz) by nia.
      rewrite i64_in by lia. unfold cur_seek. cbn [cur_pos cur_data]. rewrite Hb. destruct (N.ltb_spec (p + j * sz) (i * sz)) as [ Hlt | Hge ].
      * replace ((Z.of_N p + (Z.of_N (j * sz) - Z.of_N (i * sz)) <? 0)%Z) with true by lia. reflexivity.
      * replace (((Z.of_N p + (Z.of_N (j * sz) - Z.of_N (i * sz)) <? 0) || (2 ^ 64 <=? Z.of_N p + (Z.of_N (j * sz) - Z.of_N (i * sz))))%Z) with false by lia.
        unfold at_place. cbn [fst snd]. do 4 f_equal. lia.
  - assert (sz = 0) by nia. destruct Hc as [ Hc | Hc ]; [ | lia ]. replace (p + j * sz <? i * sz) with false by lia.
    destruct (as_i64_eq j) as (k1 & E1), (as_i64_eq i) as (k2 & E2).
    assert (Ed : exists k, i64_op c (as_i64 j - as_i64 i) = Ok (Z.of_N j - Z.of_N i - k * 2 ^ 64)%Z).
    { unfold i64_op. rewrite Hc, E1, E2. match goal with |- context [wrap_i64 ?z] => destruct (wrap_i64_eq z) as (k3 & E3) end. rewrite E3.
      destruct (_ && _)%bool; [ exists (k1 - k2)%Z | exists (k1 - k2 + k3)%Z ]; f_equal; lia. }
    destruct Ed as (k & ->). destruct (Z.eqb_spec (Z.of_N j - Z.of_N i - k * 2 ^ 64) 0) as [ E | E ].
    + assert (j = i) by lia. subst j. unfold at_place. cbn [fst snd]. do 4 f_equal. lia.
    + replace (as_i64 sz) with 0%Z by (rewrite H; reflexivity). rewrite Z.mul_0_r, i64_in by lia. unfold cur_seek. cbn [cur_pos cur_data].
      rewrite Z.add_0_r. replace (((Z.of_N p <? 0) || (2 ^ 64 <=? Z.of_N p))%Z) with false by nia.
      unfold at_place. cbn [fst snd]. do 4 f_equal. nia.
Qed.

Lemma next_place c t f rd i p : opens c t f rd -> bytes_ok (cur_data (nf_src f)) -> i < h_n_records (nf_header f) ->
  exists x k, nr_next c (at_place f rd (i, p)) = (Some x, at_place f rd (i + 1, p + k))
    /\ attempt t (h_dtype (nf_header f)) (dropN p (cur_data (nf_src f))) (say_item x) k.
Proof.
  intros (Hw & _ & Hr & _ & Hs) Hb Hi. unfold nr_next, nr_total_len. cbn [nr_header nr_index nr_type nr_src at_place fst snd].
  replace (i <? h_n_records (nf_header f)) with true by lia. unfold run_cursor. cbn [cur_rest cur_data cur_pos]. unfold cur_rest. cbn [cur_data cur_pos].
  destruct (run (read_one c rd) (dropN p (cur_data (nf_src f)))) as (x, rest) eqn:E. exists x. eexists. split; [ reflexivity | ].
  apply (run_attempt c t _ rd); auto. now apply Forall_dropN.
Qed.

(** * Steps *)
Lemma step_exists c t f rd k a : opens c t f rd -> addressable c f -> bytes_ok (cur_data (nf_src f)) -> in_place f a ->
  exists s b, perform_one c k (at_place f rd a) = (s, at_place f rd b) /\ in_place f b
    /\ step (c_usize_max c) t (h_dtype (nf_header f)) (h_n_records (nf_header f)) (cur_data (nf_src f)) k a s b.
Proof.
  intros Ho Ha Hb Hp. destruct a as (i, p). pose proof Ho as (Hw & Hn & Hr & Hs & Hf). destruct k as [ | j | j | | ]; cbn [perform_one].
  - destruct (N.lt_ge_cases i (h_n_records (nf_header f))) as [ Hlt | Hge ].
    + destruct (next_place c t f rd i p Ho Hb Hlt) as (x & k & -> & Hat). eexists _, _. split; [ reflexivity | ]. split; [ | now constructor ].
      apply (attempt_at_most c t _ rd) in Hat; auto; [ | now apply Forall_dropN ]. destruct Hp as (H1 & H2). split; cbn [fst snd] in *; nia.
    + unfold nr_next, nr_total_len. cbn [nr_header nr_index at_place fst]. replace (i <? h_n_records (nf_header f)) with false by lia.
      eexists _, (i, p). split; [ reflexivity | ]. split; [ auto | ]. now constructor.
  - destruct (N.le_gt_cases j (h_n_records (nf_header f))) as [ Hle | Hgt ].
    + rewrite (seek_place c t) by auto. cbv zeta. destruct (N.ltb_spec (p + j * size (h_dtype (nf_header f))) (i * size (h_dtype (nf_header f)))) as [ Hlt | Hge ].
      * eexists _, (i, p). split; [ reflexivity | ]. split; [ auto | ]. now constructor.
      * eexists _, (j, _). split; [ reflexivity | ]. split; [ | constructor; [ auto | lia ] ]. destruct Hp as (H1 & H2). split; cbn [fst snd] in *; [ auto | lia ].
    + unfold nr_seek_to, nr_total_len. cbn [nr_header at_place]. replace (h_n_records (nf_header f) <? j) with true by lia.
      eexists _, (i, p). split; [ reflexivity | ]. split; [ auto | ]. now constructor.
  - unfold nr_read_at, nr_total_len. cbn [nr_header at_place]. fold (at_place f rd (i, p)). destruct (N.lt_ge_cases j (h_n_records (nf_header f))) as [ Hlt | Hge ].
    + replace (h_n_records (nf_header f) <=? j) with false by lia. rewrite (seek_place c t) by (auto; lia). cbv zeta.
      destruct (N.ltb_spec (p + j * size (h_dtype (nf_header f))) (i * size (h_dtype (nf_header f)))) as [ Hl | Hg ].
      * eexists _, (i, p). split; [ reflexivity | ]. split; [ auto | ]. now constructor.
      * destruct (next_place c t f rd j (p + j * size (h_dtype (nf_header f)) - i * size (h_dtype (nf_header f))) Ho Hb Hlt) as (x & k & -> & Hat).
        eexists _, _. split; [ reflexivity | ]. split; [ | apply at_there; [ auto | lia | auto ] ].
        apply (attempt_at_most c t _ rd) in Hat; auto; [ | now apply Forall_dropN ]. destruct Hp as (H1 & H2). split; cbn [fst snd] in *; nia.
    + replace (h_n_records (nf_header f) <=? j) with true by lia. eexists _, (i, p). split; [ reflexivity | ]. split; [ auto | ]. now constructor.
  - unfold nr_len, nr_total_len. cbn [nr_header nr_index at_place fst]. destruct Hp as (H1 & H2). cbn [fst] in H1. replace (i <=? h_n_records (nf_header f)) with true by lia.
    eexists _, (i, p). split; [ reflexivity | ]. split; [ now split | ]. constructor.
  - unfold nr_size_hint, nr_len, nr_total_len. cbn [nr_header nr_index at_place fst]. destruct Hp as (H1 & H2). cbn [fst] in H1.
    replace (i <=? h_n_records (nf_header f)) with true by lia. cbn [bind]. destruct (N.ltb_spec (c_usize_max c) (h_n_records (nf_header f) - i)).
    + eexists _, (i, p). split; [ reflexivity | ]. split; [ now split | ]. now constructor.
    + eexists _, (i, p). split; [ reflexivity | ]. split; [ now split | ]. now constructor.
Qed.
Lemma step_unique c t d rd m n data k a s b s' b' : wf_dtype d -> strings_fit (c_usize_max c) d -> reader c t d = DOk rd -> bytes_ok data ->
  step m t d n data k a s b -> step m t d n data k a s' b' -> s = s' /\ b = b'.
Proof.
  intros Hw Hs Hr Hb H1 H2. inversion H1; subst; inversion H2; subst; try (exfalso; lia); try (split; reflexivity).
  - match goal with A : attempt _ _ _ s _, B : attempt _ _ _ s' _ |- _ => destruct (attempt_unique c t d rd _ _ _ _ _ Hw Hs Hr (Forall_dropN _ _ _ Hb) A B) as (-> & ->) end. auto.
  - split; [ reflexivity | ]. f_equal. lia.
  - assert (q = q0) by lia. subst q0.
    match goal with A : attempt _ _ _ s _, B : attempt _ _ _ s' _ |- _ => destruct (attempt_unique c t d rd _ _ _ _ _ Hw Hs Hr (Forall_dropN _ _ _ Hb) A B) as (-> & ->) end. auto.
Qed.

(** * Histories *)
Lemma perform_history c t f rd ks : opens c t f rd -> addressable c f -> bytes_ok (cur_data (nf_src f)) -> forall a, in_place f a ->
  exists ss b, perform c ks (at_place f rd a) = (ss, at_place f rd b) /\ in_place f b
    /\ history (c_usize_max c) t (h_dtype (nf_header f)) (h_n_records (nf_header f)) (cur_data (nf_src f)) ks a ss b.
Proof.
  intros Ho Ha Hb. induction ks as [ | k ks IH ]; intros a Hp; cbn [perform].
  - exists [], a. split; [ reflexivity | ]. split; [ auto | constructor ].
  - destruct (step_exists c t f rd k a Ho Ha Hb Hp) as (s & b & -> & Hpb & Hst). destruct (IH b Hpb) as (ss & e & -> & Hpe & Hh).
    exists (s :: ss), e. split; [ reflexivity | ]. split; [ auto | ]. econstructor; eauto.
Qed.
Lemma history_unique c t d rd m n data ks : wf_dtype d -> strings_fit (c_usize_max c) d -> reader c t d = DOk rd -> bytes_ok data ->
  forall a ss b ss' b', history m t d n data ks a ss b -> history m t d n data ks a ss' b' -> ss = ss' /\ b = b'.
Proof.
  intros Hw Hs Hr Hb. induction ks as [ | k ks IH ]; intros a ss b ss' b' H1 H2; inversion H1; subst; inversion H2; subst; [ auto | ].
  match goal with A : step _ _ _ _ _ _ _ s ?x, B : step _ _ _ _ _ _ _ s0 ?y |- _ => destruct (step_unique c t d rd _ _ _ _ _ _ _ _ _ Hw Hs Hr Hb A B) as (-> & ->) end.
  match goal with A : history _ _ _ _ _ ks _ _ _, B : history _ _ _ _ _ ks _ _ _ |- _ => destruct (IH _ _ _ _ _ A B) as (-> & ->) end. auto.
Qed.

Lemma source_kept c src f src' : npy_new c src = (Ok f, src') -> cur_data (nf_src f) = cur_data src.
Proof.
  intros H. apply npy_new_inv in H as (-> & H & _). unfold run_cursor in H. destruct (run (read_and_interpret c) (cur_rest src)) as (x, rest).
  apply pair_inj in H as (_ & <-). reflexivity.
Qed.

Lemma history_exact c t src f src' r ks ss i p : bytes_ok (cur_data src) -> npy_new c src = (Ok f, src') -> npy_data c t f = DOk r -> addressable c f ->
  (exists r', perform c ks r = (ss, r') /\ nr_index r' = i /\ nr_src r' = {| cur_data := cur_data src; cur_pos := p |})
  <-> history (c_usize_max c) t (h_dtype (nf_header f)) (h_n_records (nf_header f)) (cur_data src) ks (0, cur_pos (nf_src f)) ss (i, p).
Proof.
  intros Hb Hf Hr Ha. destruct (data_opens _ _ _ _ _ _ (proj1 Ha) Hb Hf Hr) as (rd & Ho & ->). pose proof (source_kept _ _ _ _ Hf) as Hk.
  assert (Hb' : bytes_ok (cur_data (nf_src f))) by now rewrite Hk.
  assert (Hp : in_place f (0, cur_pos (nf_src f))) by (split; cbn [fst snd]; lia).
  destruct (perform_history c t f rd ks Ho Ha Hb' _ Hp) as (ss' & b & E & Hpb & Hh).
  replace {| nr_header := nf_header f; nr_type := rd; nr_src := nf_src f; nr_index := 0 |} with (at_place f rd (0, cur_pos (nf_src f)))
    by (unfold at_place; cbn [fst snd]; now destruct (nf_src f)).
  rewrite E. rewrite Hk in Hh. split.
  - intros (r' & H & <- & Hs). apply pair_inj in H as (<- & <-). cbn [at_place nr_index nr_src] in *. rewrite Hk in Hs.
    assert (snd b = p) by congruence. subst p. now destruct b.
  - intros H. destruct Ho as (Hw & _ & Hrd & _ & Hfit). destruct (history_unique c t _ rd _ _ _ _ Hw Hfit Hrd Hb _ _ _ _ _ Hh H) as (-> & ->).
    eexists. split; [ reflexivity | ]. split; [ reflexivity | ]. cbn [at_place nr_src snd]. now rewrite Hk.
Qed.
Lemma history_total c t src f src' r ks : bytes_ok (cur_data src) -> npy_new c src = (Ok f, src') -> npy_data c t f = DOk r -> addressable c f ->
  exists ss i p, history (c_usize_max c) t (h_dtype (nf_header f)) (h_n_records (nf_header f)) (cur_data src) ks (0, cur_pos (nf_src f)) ss (i, p)
    /\ forall ss' i' p', history (c_usize_max c) t (h_dtype (nf_header f)) (h_n_records (nf_header f)) (cur_data src) ks (0, cur_pos (nf_src f)) ss' (i', p') ->
       ss' = ss /\ i' = i /\ p' = p.
Proof.
  intros Hb Hf Hr Ha. destruct (data_opens _ _ _ _ _ _ (proj1 Ha) Hb Hf Hr) as (rd & Ho & ->). pose proof (source_kept _ _ _ _ Hf) as Hk.
  assert (Hb' : bytes_ok (cur_data (nf_src f))) by now rewrite Hk.
  assert (Hp : in_place f (0, cur_pos (nf_src f))) by (split; cbn [fst snd]; lia).
  destruct (perform_history c t f rd ks Ho Ha Hb' _ Hp) as (ss & (i, p) & E & Hpb & Hh). rewrite Hk in Hh. exists ss, i, p. split; [ auto | ].
  intros ss' i' p' H. destruct Ho as (Hw & _ & Hrd & _ & Hfit). destruct (history_unique c t _ rd _ _ _ _ Hw Hfit Hrd Hb _ _ _ _ _ Hh H) as (-> & [= -> ->]). auto.
Qed.

(** * Consequences *)
(** A reader never gets ahead, and gets behind only by errors of reading an item. *)
Lemma step_behind c t d rd m n data k i p s i' p' : wf_dtype d -> strings_fit (c_usize_max c) d -> reader c t d = DOk rd -> bytes_ok data ->
  step m t d n data k (i, p) s (i', p') -> p' + i * size d <= p + i' * size d /\ (~ item_error s -> p' + i * size d = p + i' * size d).
Proof.
  intros Hw Hs Hr Hb H.
  assert (G : forall q s k, attempt t d (dropN q data) s k -> k <= size d /\ (~ item_error s -> k = size d)).
  { intros q s0 k0 H0. split; [ now apply (attempt_at_most c t d rd) in H0; auto; [ | apply Forall_dropN ] | ]. intros Hn. destruct H0 as [ | b rest msg _ _ | ]; [ reflexivity | | ];
    exfalso; apply Hn; [ left; eauto | now right ]. }
  inversion H; subst; try (split; [ nia | intros _; nia ]).
  - match goal with A : attempt _ _ _ _ _ |- _ => apply G in A as (A1 & A2) end. split; [ nia | ]. intros Hn. rewrite (A2 Hn). lia.
  - match goal with A : attempt _ _ _ _ _ |- _ => apply G in A as (A1 & A2) end. split; [ nia | ]. intros Hn. rewrite (A2 Hn). nia.
Qed.
Lemma history_behind c t d rd m n data ks : wf_dtype d -> strings_fit (c_usize_max c) d -> reader c t d = DOk rd -> bytes_ok data ->
  forall i p ss i' p', history m t d n data ks (i, p) ss (i', p') ->
  p' + i * size d <= p + i' * size d /\ (Forall (fun s => ~ item_error s) ss -> p' + i * size d = p + i' * size d).
Proof.
  intros Hw Hs Hr Hb. induction ks as [ | k ks IH ]; intros i p ss i' p' H; inversion H; subst; [ split; [ lia | intros _; lia ] | ].
  destruct b as (i1, p1). match goal with A : step _ _ _ _ _ _ _ _ _ |- _ => apply (step_behind c t d rd) in A as (A1 & A2); auto end.
  match goal with A : history _ _ _ _ _ ks _ _ _ |- _ => apply IH in A as (B1 & B2) end. split; [ nia | ].
  intros Hf. apply Forall_cons_iff in Hf as (H1 & H2). specialize (A2 H1). specialize (B2 H2). lia.
Qed.

(** * A complete file whose broken items are noticed at their ends *)
Lemma perform_actual c ks : forall r, actual c ks r = map coarse (fst (perform c ks r)).
Proof.
  induction ks as [ | k ks IH ]; intros r; [ reflexivity | ]. cbn [actual perform].
  assert (E : actual_call c k r = (coarse (fst (perform_one c k r)), snd (perform_one c k r))).
  { destruct k; cbn [actual_call perform_one].
    - destruct (nr_next c r) as ([ [ | | ] | ], r'); reflexivity.
    - destruct (nr_seek_to c i r) as ([ | | ], r'); reflexivity.
    - destruct (nr_read_at c i r) as ([ | | ], r'); reflexivity.
    - destruct (nr_len c r); reflexivity.
    - destruct (nr_size_hint c r) as [ (a, b) | | ]; reflexivity. }
  rewrite E. destruct (perform_one c k r) as (s, r'). cbn [fst snd]. rewrite IH. destruct (perform c ks r') as (ss, r''). reflexivity.
Qed.

Lemma stored_block t d blocks items i x : stored t d blocks items -> nth_error items i = Some x ->
  exists b, In b blocks /\ lenN b = size d /\ bytes_ok b /\ decode t d b = x
  /\ exists before after, List.concat blocks = before ++ b ++ after /\ lenN before = N.of_nat i * size d.
Proof.
  intros H. revert i. induction H as [ | b v blocks items (Hl & Hb & Hd) H IH ]; intros [ | i ] Hx; try discriminate Hx.
  - injection Hx as <-. exists b. split; [ now left | ]. repeat split; auto. exists [], (List.concat blocks). split; [ reflexivity | ]. rewrite lenN_nil. lia.
  - cbn [nth_error] in Hx. apply IH in Hx as (b' & Hi & Hl' & Hb' & Hd' & u & w & E & Hu). exists b'. split; [ now right | ]. repeat split; auto.
    exists (b ++ u), w. cbn [List.concat]. rewrite E, <- app_assoc. split; [ reflexivity | ]. rewrite lenN_app, Hl, Hu. lia.
Qed.
Lemma aligned_attempt c t d rd blocks items more i s k : wf_dtype d -> strings_fit (c_usize_max c) d -> reader c t d = DOk rd ->
  stored t d blocks items -> noticed_at_end t d blocks -> bytes_ok (List.concat blocks ++ more) -> i < lenN items ->
  attempt t d (dropN (i * size d) (List.concat blocks ++ more)) s k -> coarse s = item_obs items i /\ k = size d.
Proof.
  intros Hw Hs Hr Hst Hn Hb Hi H. unfold item_obs. destruct (nth_error items (N.to_nat i)) as [ x | ] eqn:E;
    [ | apply nth_error_None in E; unfold lenN in Hi; lia ].
  destruct (stored_block _ _ _ _ _ _ Hst E) as (b & Hin & Hl & Hbb & Hd & u & w & Hc & Hu). rewrite Hc in *. rewrite N2Nat.id in Hu. rewrite <- !app_assoc in *.
  rewrite (dropN_app _ u) in H by exact Hu. apply Forall_app in Hb as (_ & Hb).
  destruct x as [ v | ].
  - destruct (attempt_unique c t d rd _ _ _ _ _ Hw Hs Hr Hb H (attempt_item t d _ b _ v eq_refl Hl Hd)) as (-> & ->). auto.
  - unfold noticed_at_end in Hn. rewrite Forall_forall in Hn. destruct (Hn b Hin Hd) as (msg & Hm).
    destruct (attempt_unique c t d rd _ _ _ _ _ Hw Hs Hr Hb H (attempt_fault t d _ b _ msg eq_refl Hm)) as (-> & ->). auto.
Qed.
Lemma aligned_history c t f rd blocks items more ks : opens c t f rd -> addressable c f -> bytes_ok (cur_data (nf_src f)) ->
  cur_rest (nf_src f) = List.concat blocks ++ more -> stored t (h_dtype (nf_header f)) blocks items -> lenN items = h_n_records (nf_header f) ->
  noticed_at_end t (h_dtype (nf_header f)) blocks ->
  forall i, i <= h_n_records (nf_header f) -> forall ss e,
  history (c_usize_max c) t (h_dtype (nf_header f)) (h_n_records (nf_header f)) (cur_data (nf_src f)) ks (i, cur_pos (nf_src f) + i * size (h_dtype (nf_header f))) ss e ->
  map coarse ss = ideal (c_usize_max c) items ks i.
Proof.
  intros (Hw & _ & Hr & _ & Hfit) Ha Hb Hc Hst Hn Hno. set (d := h_dtype (nf_header f)) in *. set (p0 := cur_pos (nf_src f)) in *.
  assert (Hbr : bytes_ok (List.concat blocks ++ more)) by (rewrite <- Hc; now apply Forall_dropN).
  assert (G : forall i s k, i < lenN items -> attempt t d (dropN (p0 + i * size d) (cur_data (nf_src f))) s k -> coarse s = item_obs items i /\ k = size d).
  { intros i s k Hi H. apply (aligned_attempt c t d rd blocks items more i s k); auto. rewrite <- Hc. unfold cur_rest. fold p0. rewrite dropN_dropN. now rewrite (N.add_comm (i * size d)) || exact H. }
  induction ks as [ | k ks IH ]; intros i Hi ss e H; inversion H; subst; [ reflexivity | ]. cbn [map ideal].
  match goal with A : step _ _ _ _ _ _ _ _ _ |- _ => inversion A; subst end; cbn [ideal_call]; rewrite ?Hn.
  - match goal with A : attempt _ _ _ _ _ |- _ => apply G in A as (-> & ->); [ | lia ] end. replace (i <? h_n_records (nf_header f)) with true by lia.
    f_equal. apply (IH (i + 1) ltac:(lia) ss0 e). replace (p0 + (i + 1) * size d) with (p0 + i * size d + size d) by lia. assumption.
  - replace (i <? h_n_records (nf_header f)) with false by lia. f_equal. eapply IH; eauto.
  - replace (j <=? h_n_records (nf_header f)) with true by lia. f_equal. apply (IH j ltac:(lia) ss0 e). replace (p0 + j * size d) with q by lia. assumption.
  - exfalso. lia.
  - replace (j <=? h_n_records (nf_header f)) with false by lia. f_equal. eapply IH; eauto.
  - assert (q = p0 + j * size d) by lia. subst q. match goal with A : attempt _ _ _ _ _ |- _ => apply G in A as (-> & ->); [ | lia ] end.
    replace (j <? h_n_records (nf_header f)) with true by lia. f_equal. apply (IH (j + 1) ltac:(lia) ss0 e). replace (p0 + (j + 1) * size d) with (p0 + j * size d + size d) by lia. assumption.
  - exfalso. lia.
  - replace (j <? h_n_records (nf_header f)) with false by lia. f_equal. eapply IH; eauto.
  - f_equal. eapply IH; eauto.
  - replace (h_n_records (nf_header f) - i <=? c_usize_max c) with true by lia. f_equal. eapply IH; eauto.
  - replace (h_n_records (nf_header f) - i <=? c_usize_max c) with false by lia. f_equal. eapply IH; eauto.
Qed.
Lemma in_order c t src f src' r blocks items more ks : bytes_ok (cur_data src) -> npy_new c src = (Ok f, src') -> npy_data c t f = DOk r -> addressable c f ->
  cur_rest (nf_src f) = List.concat blocks ++ more -> stored t (h_dtype (nf_header f)) blocks items -> lenN items = h_n_records (nf_header f) ->
  noticed_at_end t (h_dtype (nf_header f)) blocks ->
  map coarse (fst (perform c ks r)) = ideal (c_usize_max c) items ks 0.
Proof.
  intros Hb Hf Hr Ha Hc Hst Hn Hno. destruct (data_opens _ _ _ _ _ _ (proj1 Ha) Hb Hf Hr) as (rd & Ho & ->). pose proof (source_kept _ _ _ _ Hf) as Hk.
  assert (Hb' : bytes_ok (cur_data (nf_src f))) by now rewrite Hk.
  assert (Hp : in_place f (0, cur_pos (nf_src f))) by (split; cbn [fst snd]; lia).
  destruct (perform_history c t f rd ks Ho Ha Hb' _ Hp) as (ss' & b & E & Hpb & Hh).
  replace {| nr_header := nf_header f; nr_type := rd; nr_src := nf_src f; nr_index := 0 |} with (at_place f rd (0, cur_pos (nf_src f)))
    by (unfold at_place; cbn [fst snd]; now destruct (nf_src f)).
  rewrite E. cbn [fst]. eapply (aligned_history c t f rd blocks items more ks); eauto; [ lia | ]. rewrite N.mul_0_l, N.add_0_r. exact Hh.
Qed.
Lemma opened_behind c t src f src' r ks ss i p : bytes_ok (cur_data src) -> npy_new c src = (Ok f, src') -> npy_data c t f = DOk r -> addressable c f ->
  forall a b, history (c_usize_max c) t (h_dtype (nf_header f)) (h_n_records (nf_header f)) (cur_data src) ks (a, b) ss (i, p) ->
  p + a * size (h_dtype (nf_header f)) <= b + i * size (h_dtype (nf_header f))
  /\ (Forall (fun s => ~ item_error s) ss -> p + a * size (h_dtype (nf_header f)) = b + i * size (h_dtype (nf_header f))).
Proof.
  intros Hb Hf Hr Ha a b H. destruct (data_opens _ _ _ _ _ _ (proj1 Ha) Hb Hf Hr) as (rd & (Hw & _ & Hrd & _ & Hfit) & _). eapply history_behind; eauto.
Qed.
