(** The in-memory reader over every buffer: opening it, and items that cannot be decoded. *)
From Verif Require Import M_Base M_Text M_TypeStr M_IO M_Header M_Read M_Serialize M_NpyReader S_TypeStr S_DType S_Shape S_Header S_Text S_Elem S_Strings S_Reader
  P_Base P_Text P_TypeStr P_IO P_Shape P_Header P_Number P_Elem P_ReadOne P_WriteOne P_Codec P_Sizes P_Strings P_Parse S_Dict P_Interp P_ElemT P_Reader P_Array.
Open Scope N_scope.

Lemma replicate_stored c t d rd : wf_dtype d -> strings_fit (c_usize_max c) d -> reader c t d = DOk rd -> forall blocks items, stored t d blocks items ->
  forall rest, match all_some items with
    | Some vs => run (rreplicate (List.length items) (read_one c rd)) (List.concat blocks ++ rest) = (Ok vs, rest)
    | None => exists e rest', run (rreplicate (List.length items) (read_one c rd)) (List.concat blocks ++ rest) = (Err e, rest')
    end.
Proof.
  intros Hw Hfit Hr blocks items Hs rest. pose proof (reads_replicate _ _ _ _ (List.length items) (reads_all c t d Hw rd Hr)) as H.
  destruct (stored_len _ _ _ _ Hs) as (Hl & Hb). specialize (H (List.concat blocks) rest ltac:(unfold lenN in *; lia) Hb). cbn beta in H. destruct H as [ (H & _) | H ]; [ contradiction | ].
  assert (E : map (decode t d) (pieces (List.length items) (size d) (List.concat blocks)) = items); [ | now rewrite E in H ].
  clear - Hs. induction Hs as [ | b x blocks items (Hl & Hb & Hd) Hs IH ]; [ reflexivity | ].
  cbn [List.length pieces List.concat map]. rewrite takeN_app, dropN_app by auto. now rewrite IH, Hd.
Qed.

Lemma legacy_items c t bs f src' r items : strings_fit (c_usize_max c) (h_dtype (nf_header f)) -> wf_cfg c -> bytes_ok bs -> lenN bs <= c_usize_max c ->
  npy_new c {| cur_data := bs; cur_pos := 0 |} = (Ok f, src') -> npy_data c t f = DOk r -> complete_file t f items ->
  lenN (cur_rest (nf_src f)) = lenN items * size (h_dtype (nf_header f)) -> lenN items <= c_usize_max c ->
  exists nd, nd_from_bytes c t bs = Ok nd /\ nd_len c nd = lenN items
    /\ nd_to_vec c nd = match all_some items with Some vs => Ok vs | None => Panic end
    /\ (forall i, nd_get c i nd = seen_item (nth_error items (N.to_nat i)))
    /\ (forall k, N.of_nat k <= c_usize_max c -> fst (iterate c k (nd_into_iter nd)) = map (fun i => seen_item (nth_error items i)) (seq 0 k)).
Proof.
  intros Hfit Hcfg Hb Hlen Hf Hr (blocks & more & Hd & Hs & Hn) Hall Hit.
  destruct (data_opens c t {| cur_data := bs; cur_pos := 0 |} f _ r Hfit Hb Hf Hr) as (rd & Ho & ->).
  pose proof Ho as (Hw & Hn64 & Hrd & Hsz & _).
  destruct (stored_len _ _ _ _ Hs) as (Hl & _). rewrite Hd, lenN_app, Hl in Hall. assert (more = []) as -> by (apply lenN_0; lia).
  rewrite app_nil_r in Hd. set (D := cur_rest (nf_src f)) in *. set (sz := size (h_dtype (nf_header f))) in *.
  assert (HlD : lenN D <= lenN bs).
  { unfold D, cur_rest. rewrite (opened_data _ _ _ _ Hf). cbn [cur_data]. rewrite lenN_dropN. lia. }
  assert (Hmax : c_usize_max c < 2 ^ 64) by (destruct Hcfg as [ Hcfg | Hcfg ]; change (2 ^ 64) with 18446744073709551616 in *; change (2 ^ 32) with 4294967296 in *; lia).
  rewrite <- Hd in Hl. set (nd := {| nd_header := nf_header f; nd_type := rd; nd_slice := D |}).
  assert (Hnd : nd_len c nd = lenN items).
  { unfold nd_len, nd. cbn [nd_header]. rewrite <- Hn. now rewrite mod_small_id. }
  assert (Hget : forall i, nd_get c i nd = seen_item (nth_error items (N.to_nat i))).
  { intros i. unfold nd_get. rewrite Hnd. destruct (N.ltb_spec i (lenN items)) as [ Hlt | Hge ].
    - unfold nd_get_unchecked. cbn [nd_header nd_type nd_slice nd]. rewrite Hsz. fold sz. unfold usize_mul.
      assert (Hmul : i * sz <= lenN items * sz) by nia. replace (i * sz <=? c_usize_max c) with true by lia. cbn [bind].
      replace (lenN D <? i * sz) with false by lia.
      pose proof (item_read c t f rd blocks items D [] [] i Ho Hs ltac:(now rewrite !app_nil_r) Hlt) as H. cbn zeta in H. fold sz in H.
      destruct (run (read_one c rd) (dropN (i * sz) D)) as ([ v | e | ], rest); cbn [fst unwrap bind].
      + destruct H as (-> & _). reflexivity.
      + destruct H as [ (-> & _) | (H & _) ]; [ reflexivity | nia ].
      + destruct H.
    - replace (nth_error items (N.to_nat i)) with (@None (option val)); [ reflexivity | ]. symmetry. apply nth_error_None. unfold lenN in Hge. lia. }
  exists nd. split; [ | split; [ exact Hnd | split; [ | split; [ exact Hget | ] ] ] ].
  - unfold nd_from_bytes. rewrite Hf, Hr. cbn [nr_header nr_src nr_type]. fold D. rewrite Hsz, <- Hn. fold sz. unfold u64_mul.
    replace (sz * lenN items <? 2 ^ 64) with true by lia. cbn [bind]. replace (sz * lenN items =? lenN D) with true by lia. reflexivity.
  - unfold nd_to_vec. rewrite Hnd. cbn [nd_type nd_slice nd]. replace (N.to_nat (lenN items)) with (List.length items) by (unfold lenN; lia).
    pose proof (replicate_stored c t _ rd Hw Hfit Hrd blocks items Hs []) as H. rewrite app_nil_r, <- Hd in H. destruct (all_some items).
    + now rewrite H.
    + destruct H as (e & rest' & H). now rewrite H.
  - assert (G : forall k i0, i0 + N.of_nat k <= c_usize_max c -> fst (iterate c k {| it_data := nd; it_i := i0 |})
        = map (fun j => seen_item (nth_error items j)) (seq (N.to_nat i0) k)).
    { clear Hit. induction k as [ | k IH ]; intros i0 Hk; cbn [iterate seq map]; [ reflexivity | ].
      unfold it_next. cbn [it_data it_i]. replace (c_usize_max c <=? i0) with false by lia. cbn [andb]. rewrite mod_small_id by lia.
      specialize (IH (i0 + 1) ltac:(lia)). destruct (iterate c k {| it_data := nd; it_i := i0 + 1 |}) as (l, it). cbn [fst] in *. rewrite IH, Hget.
      now replace (N.to_nat (i0 + 1)) with (S (N.to_nat i0)) by lia. }
    intros k Hk. apply (G k 0). lia.
Qed.

(** Opening: the length of the data decides. *)
Lemma legacy_open c t bs f src' r : bytes_ok bs -> npy_new c {| cur_data := bs; cur_pos := 0 |} = (Ok f, src') -> npy_data c t f = DOk r ->
  let total := size (h_dtype (nf_header f)) * h_n_records (nf_header f) in
  total < 2 ^ 64 \/ c_ovf_panics c = true ->
  (lenN (cur_rest (nf_src f)) = total -> total < 2 ^ 64 -> exists nd, nd_from_bytes c t bs = Ok nd)
  /\ (lenN (cur_rest (nf_src f)) <> total \/ 2 ^ 64 <= total -> nd_from_bytes c t bs = Panic).
Proof.
  intros Hb Hf Hr total Ht. destruct (data_opened c t {| cur_data := bs; cur_pos := 0 |} f _ r Hb Hf Hr) as (rd & (Hw & Hn64 & Hrd & Hsz) & ->).
  unfold nd_from_bytes. rewrite Hf, Hr. cbn [nr_header nr_src nr_type]. rewrite Hsz. unfold u64_mul. fold total.
  destruct (N.ltb_spec total (2 ^ 64)) as [ Hlt | Hge ]; cbn [bind].
  - split.
    + intros E _. rewrite <- E, N.eqb_refl. eauto.
    + intros [ E | E ]; [ | lia ]. replace (total =? _) with false by lia. reflexivity.
  - destruct Ht as [ Ht | -> ]; [ lia | ]. split; [ lia | reflexivity ].
Qed.
Lemma legacy_refuses c t bs :
  (forall e src', npy_new c {| cur_data := bs; cur_pos := 0 |} = (Err e, src') -> nd_from_bytes c t bs = Err e)
  /\ (forall f src' e, npy_new c {| cur_data := bs; cur_pos := 0 |} = (Ok f, src') -> npy_data c t f = DErr e -> exists e', nd_from_bytes c t bs = Err e').
Proof.
  unfold nd_from_bytes. split.
  - intros e src' ->. reflexivity.
  - intros f src' e -> ->. eauto.
Qed.
