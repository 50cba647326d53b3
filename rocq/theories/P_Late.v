(** Calls after an item that could not be read. *)
From Verif Require Import M_Base M_Text M_TypeStr M_IO M_Header M_Read M_Serialize M_NpyReader M_Write.
From Verif Require Import S_Text S_TypeStr S_DType S_Shape S_Header S_Elem S_Strings S_Reader S_Write S_Fault S_History S_Late.
From Verif Require Import P_Base P_Text P_TypeStr P_IO P_Sink P_Shape P_Header P_WriteHeader P_Number P_Elem P_ReadOne P_WriteOne P_Codec P_Sizes P_Strings P_Parse P_ElemT P_Reader P_Fault
  P_WriteFile P_History P_Member P_Crash P_Array.
Open Scope N_scope.

(** * A file that shows that the reader has fallen behind *)
(** [b] cannot be read and is found out after [bs]; each attempt leaves the reader [lag] bytes behind. *)
Definition readings (from : N) (k : nat) : list call := map (fun i => CReadAt (2 * (from + N.of_nat i))) (seq 0 k).
Lemma readings_S from k : readings from (S k) = CReadAt (2 * from) :: readings (from + 1) k.
Proof.
  unfold readings. cbn [seq map]. f_equal; [ f_equal; lia | ]. rewrite <- seq_shift, map_map. apply map_ext. intros i. f_equal. lia.
Qed.

Lemma falls_behind m t d n base bs tail msg after : lenN (bs ++ tail) = size d -> unreadable t d bs msg -> forall k i x p pre,
  p + i * lenN tail = base + x * size d -> lenN pre = base + i * (2 * size d - lenN tail) -> 2 * (i + N.of_nat k) <= n + 1 ->
  exists q, history m t d n (pre ++ List.concat (repeat (bs ++ tail ++ repeatN 0 (size d - lenN tail)) k) ++ after) (readings i k) (x, p) (repeat (Failed (EData msg)) k) q
  /\ (k = O \/ exists y, q = (2 * (i + N.of_nat k) - 1, y) /\ y + (i + N.of_nat k) * lenN tail = base + (2 * (i + N.of_nat k) - 1) * size d).
Proof.
  intros Hl Hu. rewrite lenN_app in Hl. induction k as [ | k IH ]; intros i x p pre Hp Hpre Hn.
  - exists (x, p). split; [ constructor | now left ].
  - rewrite readings_S. cbn [repeat List.concat]. set (chunk := bs ++ tail ++ repeatN 0 (size d - lenN tail)) in *.
    assert (Hc : lenN chunk = 2 * size d - lenN tail) by (unfold chunk; rewrite !lenN_app, lenN_repeatN; lia).
    set (data := pre ++ (chunk ++ List.concat (repeat chunk k)) ++ after).
    assert (Hs : step m t d n data (CReadAt (2 * i)) (x, p) (Failed (EData msg)) (2 * i + 1, lenN pre + lenN bs)).
    { apply at_there; [ lia | | ].
      - rewrite Hpre. nia.
      - unfold data. rewrite dropN_app by reflexivity. unfold chunk at 1. rewrite <- !app_assoc. eapply attempt_fault; [ reflexivity | exact Hu ]. }
    destruct (IH (i + 1) (2 * i + 1) (lenN pre + lenN bs) (pre ++ chunk)) as (q & Hh & Hq).
    { rewrite Hpre. nia. }
    { rewrite lenN_app, Hpre, Hc. lia. }
    { lia. }
    replace ((pre ++ chunk) ++ List.concat (repeat chunk k) ++ after) with data in Hh by (unfold data; now rewrite <- !app_assoc).
    exists q. split; [ econstructor; eauto | right ]. destruct Hq as [ -> | (y & -> & Hy) ].
    + inversion Hh; subst. exists (lenN pre + lenN bs). split; [ f_equal; lia | ]. rewrite Hpre. nia.
    + exists y. split; [ f_equal; lia | ]. replace (i + N.of_nat (S k)) with (i + 1 + N.of_nat k) by lia. exact Hy.
Qed.

Lemma ideal_readings m items js : forall pos, ideal m items (map CReadAt js) pos = map (fun j => if j <? lenN items then item_obs items j else OPanicked) js.
Proof.
  induction js as [ | j js IH ]; intros pos; [ reflexivity | ]. cbn [map ideal ideal_call]. destruct (j <? lenN items); f_equal; apply IH.
Qed.

(** * Zeros are an item *)
Lemma takeN_zeros a b : takeN a (repeatN 0 b) = repeatN 0 (N.min a b).
Proof.
  destruct (N.le_ge_cases b a) as [ H | H ].
  - rewrite takeN_all by (rewrite lenN_repeatN; lia). f_equal. lia.
  - replace b with (a + (b - a)) at 1 by lia. rewrite repeatN_add, takeN_app by apply lenN_repeatN. f_equal. lia.
Qed.
Lemma dropN_zeros a b : dropN a (repeatN 0 b) = repeatN 0 (b - a).
Proof.
  destruct (N.le_ge_cases b a) as [ H | H ].
  - rewrite dropN_all by (rewrite lenN_repeatN; lia). replace (b - a) with 0 by lia. now rewrite repeatN_0.
  - replace b with (a + (b - a)) at 1 by lia. now rewrite repeatN_add, dropN_app by apply lenN_repeatN.
Qed.
Lemma pieces_zeros k : forall n m, N.of_nat k * n <= m -> Forall (fun p => p = repeatN 0 n) (pieces k n (repeatN 0 m)).
Proof.
  induction k as [ | k IH ]; intros n m H; cbn [pieces]; constructor.
  - rewrite takeN_zeros. f_equal. lia.
  - rewrite dropN_zeros. apply IH. lia.
Qed.
Lemma le_zeros l : Forall (fun b => b = 0) l -> little_endian l = 0.
Proof. induction 1 as [ | b l -> H IH ]; [ reflexivity | ]. cbn [little_endian]. lia. Qed.
Lemma zeros_forall n : Forall (fun b => b = 0) (repeatN 0 n).
Proof. apply Forall_repeatN. reflexivity. Qed.
Lemma number_zeros e n : number_of e (repeatN 0 n) = 0.
Proof. destruct e; apply le_zeros; try apply Forall_rev; apply zeros_forall. Qed.
Lemma units_zeros e m n : 4 * m <= n -> Forall (fun u => u = 0) (utf32_units e m (repeatN 0 n)).
Proof.
  intros H. unfold utf32_units. apply Forall_map. eapply Forall_impl; [ | apply pieces_zeros; lia ]. cbv beta. intros p ->. apply number_zeros.
Qed.
Lemma forallb_zeros f l : f 0 = true -> Forall (fun u => u = 0) l -> forallb f l = true.
Proof. intros Hf. induction 1 as [ | x l -> H IH ]; [ reflexivity | ]. cbn [forallb]. now rewrite Hf. Qed.
Lemma strip_of_zeros n : strip (repeatN 0 n) = [].
Proof. now rewrite <- (app_nil_l (repeatN 0 n)), strip_zeros. Qed.

Lemma zeros_decode m t : forall d, accepts m Reading t d -> exists v, decode t d (repeatN 0 (size d)) = Some v.
Proof.
  induction t as [ t Ha Hs | n t IH | fs IH ] using rty_rect'; intros d Hacc.
  - apply (accepts_scalar _ _ _ _ (conj Ha Hs)) in Hacc as (ts & -> & Hacc). cbn [size]. unfold scalar_size.
    destruct t; try (now destruct (Ha _ _ eq_refl)); try (now destruct (Hs _ eq_refl)); cbn [decode]; eauto.
    all: try (destruct Hacc as (Hm & Hc); rewrite Hc, Hm; eexists; reflexivity).
    all: try (cbn [scalar_ok] in Hacc; rewrite ?Hacc; rewrite forallb_zeros by (reflexivity || (apply units_zeros; lia)); eauto).
    + destruct (ts_char ts) eqn:Ec; try (rewrite strip_of_zeros; eexists; reflexivity).
      rewrite forallb_zeros by (reflexivity || (apply units_zeros; lia)). eauto.
    + rewrite strip_of_zeros. eexists; reflexivity.
  - apply accepts_array_inv in Hacc as (d' & -> & Hacc). cbn [size decode]. destruct (IH _ Hacc) as (v & Hv).
    assert (G : exists l, all_some (map (decode t d') (pieces (N.to_nat n) (size d') (repeatN 0 (n * size d')))) = Some l).
    { assert (F := pieces_zeros (N.to_nat n) (size d') (n * size d') ltac:(lia)). induction F as [ | p l -> F IHF ]; [ eexists; reflexivity | ].
      cbn [map all_some]. rewrite Hv. destruct IHF as (r & ->). eauto. }
    destruct G as (l & ->). eexists; reflexivity.
  - apply accepts_struct_inv in Hacc as (ds & -> & Hacc). rewrite size_record, decode_struct.
    enough (G : exists l, decode_fields fs ds (repeatN 0 (size_fields ds)) = Some l) by (destruct G as (l & ->); eexists; reflexivity).
    revert ds Hacc. induction IH as [ | (name, t) fs H IH IHfs ]; intros [ | (name', d) ds ] Hacc; try (now destruct Hacc); [ eexists; reflexivity | ].
    destruct Hacc as (_ & Hx & Hacc). cbn [decode_fields size_fields]. rewrite takeN_zeros, dropN_zeros.
    replace (N.min (size d) (size d + size_fields ds)) with (size d) by lia. replace (size d + size_fields ds - size d) with (size_fields ds) by lia.
    destruct (H _ Hx) as (v & Hv), (IHfs _ Hacc) as (l & Hl). cbn [snd] in Hv. rewrite Hv, Hl. eauto.
Qed.

(** * A file for any bytes *)
Lemma some_header c t d n : wf_dtype d -> top_level d -> short_header d (NDimensional [n]) -> n < 2 ^ 64 -> accepts (c_usize_max c) Reading t d ->
  (exists k, num_bytes c d = Some k) ->
  exists hdr h rd, bytes_ok hdr /\ lenN hdr < 2 ^ 33 /\ h_dtype h = d /\ h_n_records h = n /\ h_pickled h = false /\ reader c t d = DOk rd
    /\ forall area, run (read_and_interpret c) (hdr ++ area) = (Ok h, area).
Proof.
  intros Hw Ht Hsh Hn Hacc Hnb.
  assert (Hno : no_overflow [n]) by now apply no_overflow_1.
  destruct (create_short c d OrderC (NDimensional [n])) as (dict & info & Hc & Hfit); [ split; [ repeat constructor; exact Hn | exact Hno ] | exact Hsh | ].
  destruct (write_header_full c d OrderC (NDimensional [n]) dict info Ht Hc) as (pad & props & hdr & version & Hpad & _ & Hho & _). specialize (Hho Hfit).
  assert (Hd : dict = utf8 (header_dict d OrderC [n])).
  { rewrite header_dict_bytes. cbn [create_dict] in Hc. apply bind_ok in Hc as (k & _ & Hc). match type of Hc with Ok (?a, _) = _ => replace a with dict by congruence end. reflexivity. }
  assert (Hb' : bytes_ok hdr) by (eapply header_bytes_ok; [ | exact Hho ]; eapply create_dict_bytes; eauto).
  assert (Hl : lenN hdr < 2 ^ 33).
  { destruct Hho as [ v -> _ _ _ _ _ Hlen ]. rewrite preamble_length, bytes_before_eq. unfold len_ok in Hlen.
    change (2 ^ 33) with 8589934592. destruct (vp_u32 props); apply N.leb_le in Hlen; [ change (2 ^ 32 - 1) with 4294967295 in Hlen | change (2 ^ 16 - 1) with 65535 in Hlen ]; lia. }
  rewrite Hd in Hho. assert (Hs : Forall (fun n => n < 2 ^ 64) [n]) by (repeat constructor; exact Hn).
  destruct (from_parts_intro c d [n] OrderC Hno (or_intror Hnb)) as (h & Hfp).
  destruct (proj2 (reader_accepts c t d) Hacc) as (rd & Hrd). pose proof (len_exact _ _ _ _ _ Hfp Hno) as Hcount. pose proof Hfp as Hfp'. apply from_parts_ok in Hfp' as (P1 & _ & _ & _ & _ & P6 & _).
  exists hdr, h, rd. split; [ exact Hb' | ]. split; [ exact Hl | ]. split; [ exact P1 | ]. split; [ rewrite Hcount; cbn [count fold_right]; lia | ].
  split; [ rewrite P6; destruct (uses_pickled_array d) eqn:E; [ apply pickled_exact in E; now apply accepts_no_object in Hacc | reflexivity ] | ]. split; [ exact Hrd | ].
  intros area. rewrite (read_written_nd c d OrderC [n] hdr props pad Hw Ht Hs Hho area). now rewrite Hfp.
Qed.
Lemma opened c t d h rd hdr area : run (read_and_interpret c) (hdr ++ area) = (Ok h, area) -> h_dtype h = d -> h_pickled h = false -> reader c t d = DOk rd ->
  let src := {| cur_data := hdr ++ area; cur_pos := lenN hdr |} in
  npy_new c {| cur_data := hdr ++ area; cur_pos := 0 |} = (Ok {| nf_header := h; nf_src := src |}, src)
  /\ npy_data c t {| nf_header := h; nf_src := src |} = DOk {| nr_header := h; nr_type := rd; nr_src := src; nr_index := 0 |}
  /\ cur_rest src = area.
Proof.
  intros Hrun Hd Hp Hrd src. pose proof (cursor_run c [] (hdr ++ area)) as Hnew. rewrite Hrun in Hnew. cbn [app] in Hnew. change (lenN []) with 0 in Hnew. cbv zeta in Hnew.
  replace (0 + (lenN (hdr ++ area) - lenN area)) with (lenN hdr) in Hnew by (rewrite lenN_app; lia). split; [ exact Hnew | ]. split.
  - unfold npy_data. cbn [nf_header nf_src]. rewrite Hp, Hd, Hrd. reflexivity.
  - unfold cur_rest, src. cbn [cur_data cur_pos]. now apply dropN_app.
Qed.
Lemma some_file c t d n area : wf_dtype d -> top_level d -> short_header d (NDimensional [n]) -> n < 2 ^ 64 -> accepts (c_usize_max c) Reading t d ->
  (exists k, num_bytes c d = Some k) -> bytes_ok area ->
  exists src f src' r, bytes_ok (cur_data src) /\ npy_new c src = (Ok f, src') /\ npy_data c t f = DOk r /\ h_dtype (nf_header f) = d
    /\ h_n_records (nf_header f) = n /\ cur_rest (nf_src f) = area /\ cur_pos (nf_src f) < 2 ^ 33
    /\ exists pre, lenN pre = cur_pos (nf_src f) /\ cur_data src = pre ++ area.
Proof.
  intros Hw Ht Hsh Hn Hacc Hnb Hb. destruct (some_header c t d n Hw Ht Hsh Hn Hacc Hnb) as (hdr & h & rd & H1 & H2 & H3 & H4 & H5 & H6 & H7).
  destruct (opened c t d h rd hdr area (H7 area) H3 H5 H6) as (O1 & O2 & O3).
  eexists _, _, _, _. split; [ | split; [ exact O1 | split; [ exact O2 | ] ] ]; cbn [cur_data nf_src nf_header cur_pos]; [ apply Forall_app; auto | ].
  split; [ exact H3 | ]. split; [ exact H4 | ]. split; [ exact O3 | ]. split; [ exact H2 | ]. exists hdr. auto.
Qed.

(** * The reader is never wrong only if it reads to the end *)
Lemma stored_decode t d blocks : Forall (fun b => lenN b = size d /\ bytes_ok b) blocks -> stored t d blocks (map (decode t d) blocks).
Proof. unfold stored. induction 1 as [ | b l (H1 & H2) H IH ]; constructor; auto. Qed.

Lemma early_mistaken c t d : wf_dtype d -> top_level d -> short_header d (NDimensional [2 * size d + 1]) -> strings_fit (c_usize_max c) d ->
  accepts (c_usize_max c) Reading t d -> (exists k, num_bytes c d = Some k) -> size d < 2 ^ 30 ->
  forall bs tail msg, lenN (bs ++ tail) = size d -> bytes_ok (bs ++ tail) -> unreadable t d bs msg -> tail <> [] ->
  exists src f src' r items calls, bytes_ok (cur_data src) /\ npy_new c src = (Ok f, src') /\ h_dtype (nf_header f) = d /\ npy_data c t f = DOk r
    /\ complete_file t f items /\ addressable c f /\ actual c calls r <> ideal (c_usize_max c) items calls 0.
Proof.
  intros Hw Ht Hsh Hs Hacc Hnb Hsz bs tail msg Hl Hb Hu Htl. set (S := size d) in *.
  assert (Hd : 1 <= lenN tail) by (destruct tail; [ congruence | rewrite lenN_cons; lia ]). rewrite lenN_app in Hl.
  set (chunk := bs ++ tail ++ repeatN 0 (S - lenN tail)).
  assert (Hc : lenN chunk = 2 * S - lenN tail) by (unfold chunk; rewrite !lenN_app, lenN_repeatN; lia).
  set (k := N.to_nat S).
  assert (Hrep : forall j, lenN (List.concat (repeat chunk j)) = N.of_nat j * (2 * S - lenN tail)).
  { intros j. induction j as [ | j IH ]; [ reflexivity | ]. cbn [repeat List.concat]. rewrite lenN_app, IH, Hc. lia. }
  set (fill := (2 * S + 1) * S - N.of_nat (Datatypes.S k) * (2 * S - lenN tail)).
  assert (Hk : N.of_nat k = S) by (unfold k; lia).
  assert (Hfill : N.of_nat (Datatypes.S k) * (2 * S - lenN tail) + fill = (2 * S + 1) * S) by (unfold fill; rewrite Nat2N.inj_succ, Hk; nia).
  set (area := List.concat (repeat chunk (Datatypes.S k)) ++ repeatN 0 fill).
  assert (Harea : lenN area = (2 * S + 1) * S) by (unfold area; rewrite lenN_app, Hrep, lenN_repeatN; exact Hfill).
  assert (Hba : bytes_ok area).
  { apply Forall_app. split; [ | apply Forall_repeatN; lia ]. apply Forall_concat, Forall_forall. intros x Hx. apply repeat_spec in Hx as ->.
    unfold chunk. rewrite app_assoc. apply Forall_app. split; [ exact Hb | apply Forall_repeatN; lia ]. }
  change (2 ^ 30) with 1073741824 in Hsz.
  destruct (some_file c t d (2 * S + 1) area Hw Ht Hsh ltac:(change (2 ^ 64) with 18446744073709551616; lia) Hacc Hnb Hba)
    as (src & f & src' & r & H1 & H2 & H3 & H4 & H5 & H6 & H7 & pre & H8 & H9).
  set (blocks := pieces (N.to_nat (2 * S + 1)) S area).
  assert (Hblk : Forall (fun b => lenN b = S /\ bytes_ok b) blocks).
  { apply Forall_forall. intros x Hx. apply (pieces_in _ _ _ _) in Hx; auto. rewrite Harea. lia. }
  set (items := map (decode t d) blocks).
  assert (Hlen : lenN items = 2 * S + 1) by (unfold items, blocks, lenN; rewrite map_length, pieces_length; lia).
  exists src, f, src', r, items, (readings 0 (Datatypes.S k)).
  assert (Hadr : addressable c f).
  { split; [ now rewrite H4 | ]. rewrite H4, H5. fold S. change (2 ^ 33) with 8589934592 in H7. change (2 ^ 63) with 9223372036854775808. split; [ nia | right; lia ]. }
  split; [ exact H1 | ]. split; [ exact H2 | ]. split; [ exact H4 | ]. split; [ exact H3 | ]. split; [ | split; [ exact Hadr | ] ].
  { exists blocks, []. rewrite H6, app_nil_r, H4, H5. split; [ unfold blocks; rewrite blocks_pieces; auto; rewrite Harea; lia | ]. split; [ now apply stored_decode | exact Hlen ]. }
  destruct (falls_behind (c_usize_max c) t d (2 * S + 1) (lenN pre) bs tail msg (repeatN 0 fill)) with (k := Datatypes.S k) (i := 0) (x := 0) (p := lenN pre) (pre := pre)
    as ((j, q) & Hh & _); [ rewrite lenN_app; exact Hl | exact Hu | lia | lia | rewrite Nat2N.inj_succ, Hk; lia | ].
  fold S chunk in Hh. fold area in Hh. rewrite <- H9, H8, <- H4, <- H5 in Hh.
  apply (history_exact c t src f src' r _ _ _ _ H1 H2 H3 Hadr) in Hh as (r' & Hp & _).
  rewrite perform_actual, Hp. cbn [fst]. intros E.
  assert (Hlast : nth_error (ideal (c_usize_max c) items (readings 0 (Datatypes.S k)) 0) k = Some OError).
  { rewrite <- E. rewrite nth_error_map. rewrite (nth_error_repeat (Failed (EData msg))) by lia. reflexivity. }
  unfold readings in Hlast. replace (map (fun i => CReadAt (2 * (0 + N.of_nat i))) (seq 0 (Datatypes.S k)))
    with (map CReadAt (map (fun i => 2 * N.of_nat i) (seq 0 (Datatypes.S k)))) in Hlast by (rewrite map_map; apply map_ext; intros; do 2 f_equal).
  rewrite ideal_readings, map_map, nth_error_map in Hlast.
  assert (Hseq : nth_error (seq 0 (Datatypes.S k)) k = Some k).
  { rewrite seq_S, nth_error_app2, seq_length by (rewrite seq_length; lia). now rewrite Nat.sub_diag. }
  rewrite Hseq in Hlast. cbn [option_map] in Hlast. rewrite Hk, Hlen in Hlast. replace (2 * S <? 2 * S + 1) with true in Hlast by lia.
  apply Some_inj in Hlast. unfold item_obs, items in Hlast. rewrite nth_error_map in Hlast. unfold blocks in Hlast.
  replace (N.to_nat (2 * S + 1)) with (N.to_nat (2 * S) + 1)%nat in Hlast by lia. rewrite pieces_app, nth_error_app2, pieces_length, Nat.sub_diag in Hlast by (rewrite pieces_length; lia).
  cbn [pieces nth_error option_map] in Hlast. rewrite N2Nat.id in Hlast.
  assert (Hz : takeN S (dropN (2 * S * S) area) = repeatN 0 S).
  { unfold area. replace (Datatypes.S k) with (k + 1)%nat by lia. rewrite repeat_app, concat_app. cbn [repeat List.concat]. rewrite app_nil_r. unfold chunk at 2.
    replace ((List.concat (repeat chunk k) ++ bs ++ tail ++ repeatN 0 (S - lenN tail)) ++ repeatN 0 fill)
      with ((List.concat (repeat chunk k) ++ bs ++ tail) ++ repeatN 0 (S - lenN tail + fill)) by (rewrite repeatN_add, <- !app_assoc; reflexivity).
    assert (Hx : lenN (List.concat (repeat chunk k) ++ bs ++ tail) = S * (2 * S - lenN tail) + S) by (rewrite !lenN_app, Hrep, Hk; lia).
    rewrite dropN_app_gen, dropN_all, Hx, dropN_zeros by (rewrite Hx; nia). cbn [app]. rewrite takeN_zeros. f_equal.
    rewrite Nat2N.inj_succ, Hk in Hfill. nia. }
  rewrite Hz in Hlast. destruct (zeros_decode _ _ _ Hacc) as (v & Hv). fold S in Hv. rewrite Hv in Hlast. discriminate Hlast.
Qed.

Theorem never_behind c t d : wf_dtype d -> top_level d -> short_header d (NDimensional [2 * size d + 1]) -> strings_fit (c_usize_max c) d ->
  accepts (c_usize_max c) Reading t d -> (exists k, num_bytes c d = Some k) -> size d < 2 ^ 30 ->
  (forall src f src' r items calls, bytes_ok (cur_data src) -> npy_new c src = (Ok f, src') -> h_dtype (nf_header f) = d -> npy_data c t f = DOk r ->
     complete_file t f items -> addressable c f -> actual c calls r = ideal (c_usize_max c) items calls 0)
  <-> only_at_end t d.
Proof.
  intros Hw Ht Hsh Hs Hacc Hnb Hsz. split.
  - intros H b Hl Hb Hd. destruct (proj2 (reader_accepts c t d) Hacc) as (rd & Hrd).
    destruct (one_unreadable c t d rd b Hw Hs Hrd Hb Hl) as [ (v & Hv & _) | (_ & bs & tail & msg & -> & Hu & _) ]; [ congruence | ].
    destruct tail as [ | x tail ]; [ exists msg; now rewrite app_nil_r | exfalso ].
    destruct (early_mistaken c t d Hw Ht Hsh Hs Hacc Hnb Hsz bs (x :: tail) msg Hl Hb Hu ltac:(discriminate)) as (src & f & src' & r & items & calls & H1 & H2 & H3 & H4 & H5 & H6 & H7).
    apply H7. eapply H; eauto.
  - intros H src f src' r items calls H1 H2 H3 H4 (blocks & more & H5 & H6 & H7) H8. rewrite perform_actual.
    eapply in_order; eauto. rewrite H3 in *. unfold noticed_at_end. apply Forall_forall. intros b Hin Hd.
    assert (G : lenN b = size d /\ bytes_ok b).
    { clear - H6 Hin. induction H6 as [ | b' x l l' (A & B & _) _ IH ]; [ contradiction | ]. destruct Hin as [ <- | Hin ]; auto. }
    now apply H.
Qed.

(** * Which types read to the end *)
Definition every (t : rty) (d : dtype) : Prop := forall b, lenN b = size d -> bytes_ok b -> exists v, decode t d b = Some v.
Definition bad (t : rty) (d : dtype) : Prop := exists b, lenN b = size d /\ bytes_ok b /\ decode t d b = None.
Definition early (t : rty) (d : dtype) : Prop :=
  exists bs tail msg, lenN (bs ++ tail) = size d /\ bytes_ok (bs ++ tail) /\ unreadable t d bs msg /\ tail <> [].
Definition total_fields :=
  fix go (fs : list (text * rty)) (ds : list (text * dtype)) : Prop :=
    match fs, ds with
    | (_, t') :: fs', (_, d') :: ds' => total t' d' /\ go fs' ds'
    | _, _ => True
    end.
Definition late_fields :=
  fix go (fs : list (text * rty)) (ds : list (text * dtype)) : Prop :=
    match fs, ds with
    | (_, t') :: fs', (_, d') :: ds' => total t' d' /\ go fs' ds' \/ late t' d' /\ Forall (fun f => size (snd f) = 0) ds'
    | _, _ => True
    end.
Lemma total_struct fs ds : total (RStruct fs) (DRecord ds) = total_fields fs ds.
Proof. reflexivity. Qed.
Lemma late_struct fs ds : late (RStruct fs) (DRecord ds) = late_fields fs ds.
Proof. reflexivity. Qed.
Lemma sizes_zero ds : Forall (fun f => size (snd f) = 0) ds <-> size_fields ds = 0.
Proof.
  induction ds as [ | (name, d) ds IH ]; split; auto; cbn [size_fields]; fold size_fields.
  - intros H. apply Forall_cons_iff in H as (H1 & H2). cbn [snd] in H1. apply IH in H2. lia.
  - intros H. constructor; [ cbn [snd]; lia | apply IH; lia ].
Qed.
Lemma zeros_ok n : bytes_ok (repeatN 0 n).
Proof. apply Forall_repeatN. lia. Qed.
Lemma bad_size m t d : accepts m Reading t d -> bad t d -> 0 < size d.
Proof.
  intros Ha (b & Hl & _ & Hd). destruct (N.eq_0_gt_0_cases (size d)) as [ E | ]; [ exfalso | auto ]. destruct (zeros_decode _ _ _ Ha) as (v & Hv).
  rewrite E in *. apply lenN_0 in Hl as ->. rewrite repeatN_0 in Hv. congruence.
Qed.

Definition ones (n : N) : bytes := repeatN 255 n.
Lemma ones_ok n : bytes_ok (ones n).
Proof. apply Forall_repeatN. lia. Qed.
Lemma ones_unit e : number_of e (ones 4) = 0xffffffff.
Proof. destruct e; reflexivity. Qed.
Lemma ones_strip n : 0 < n -> strip (ones n) = ones n.
Proof.
  intros H. unfold strip, ones. replace n with (1 + (n - 1)) by lia. assert (E : rev (repeatN 255 (1 + (n - 1))) = repeatN 255 (1 + (n - 1))).
  { unfold repeatN. set (k := N.to_nat (1 + (n - 1))). clearbody k. induction k as [ | k IH ]; [ reflexivity | ]. cbn [repeat rev]. rewrite IH. symmetry. apply repeat_cons. }
  rewrite E. rewrite repeatN_add at 1. change (repeatN 255 1) with [255]. cbn [app drop_zeros]. change (255 :: repeatN 255 (n - 1)) with (repeatN 255 1 ++ repeatN 255 (n - 1)).
  rewrite <- repeatN_add. exact E.
Qed.
Lemma ones_utf8 n : 0 < n -> from_utf8 (ones n) = None.
Proof.
  intros H. unfold ones, repeatN. destruct (N.to_nat n) as [ | [ | k ] ] eqn:E; [ lia | reflexivity | reflexivity ].
Qed.
Lemma ones_units e k : 0 < k -> exists l, utf32_units e k (ones (4 * k)) = 0xffffffff :: l.
Proof.
  intros H. unfold utf32_units. replace (N.to_nat k) with (S (N.to_nat (k - 1))) by lia. cbn [pieces map]. eexists. f_equal.
  unfold ones. replace (4 * k) with (4 + (4 * k - 4)) by lia. rewrite repeatN_add, takeN_app by reflexivity. apply ones_unit.
Qed.

Lemma total_or c t : forall d, accepts (c_usize_max c) Reading t d -> total t d /\ every t d \/ ~ total t d /\ bad t d.
Proof.
  induction t as [ t Ha Hs | n t IH | fs IH ] using rty_rect'; intros d Hacc.
  - pose proof Hacc as Hacc'. apply (accepts_scalar _ _ _ _ (conj Ha Hs)) in Hacc as (ts & -> & Hacc).
    assert (Hu : forall f (g : list N -> val), f 0xffffffff = false -> ts_char ts = TUnicodeStr ->
      (forall b, decode t (DPlain ts) b = if forallb f (utf32_units (ts_endianness ts) (ts_size ts) b) then Some (g (utf32_units (ts_endianness ts) (ts_size ts) b)) else None) ->
      ts_size ts = 0 /\ every t (DPlain ts) \/ ts_size ts <> 0 /\ bad t (DPlain ts)).
    { intros f g Hf Hc Hd. destruct (N.eq_0_gt_0_cases (ts_size ts)) as [ E | E ]; [ left | right; split; [ lia | ] ].
      - split; auto. intros b Hl Hb. rewrite Hd, E. cbn. eauto.
      - exists (ones (4 * ts_size ts)). unfold bad. cbn [size]. unfold scalar_size. rewrite Hc. split; [ apply lenN_repeatN | ]. split; [ apply ones_ok | ].
        rewrite Hd. destruct (ones_units (ts_endianness ts) _ E) as (l & ->). cbn [forallb]. now rewrite Hf. }
    assert (Ht : forall (g : text -> val), ts_char ts <> TUnicodeStr -> (forall b, decode t (DPlain ts) b = omap g (from_utf8 (strip b))) ->
      ts_size ts = 0 /\ every t (DPlain ts) \/ ts_size ts <> 0 /\ bad t (DPlain ts)).
    { intros g Hc Hd. assert (Hz : size (DPlain ts) = ts_size ts) by (cbn [size]; unfold scalar_size; now destruct (ts_char ts)).
      destruct (N.eq_0_gt_0_cases (ts_size ts)) as [ E | E ]; [ left | right; split; [ lia | ] ].
      - split; auto. intros b Hl Hb. rewrite Hz, E in Hl. apply lenN_0 in Hl as ->. rewrite Hd. eexists; reflexivity.
      - exists (ones (ts_size ts)). rewrite Hz. split; [ apply lenN_repeatN | ]. split; [ apply ones_ok | ]. rewrite Hd, ones_strip, ones_utf8 by auto. reflexivity. }
    destruct t; try (now destruct (Ha _ _ eq_refl)); try (now destruct (Hs _ eq_refl)); cbn [total scalar_ok] in *; try (left; split; [ exact I | ]; intros b _ _; cbn [decode]; eauto; fail).
    + right. split; [ tauto | ]. exists [2]. destruct Hacc as (Hm & Hc). cbn [size]. unfold scalar_size. rewrite Hc, Hm. split; [ reflexivity | ]. split; [ repeat constructor | reflexivity ].
    + now apply (Hu (fun u => u <? 0x110000) (fun us => XUnits (strip us))).
    + now apply (Hu scalar_value (fun us => XUnits (strip us))).
    + destruct Hacc as [ Hc | Hc ].
      * apply (Ht XStr); [ congruence | ]. intros b. cbn [decode]. now rewrite Hc.
      * apply (Hu scalar_value (fun us => XStr (strip us))); auto. intros b. cbn [decode]. now rewrite Hc.
    + now apply (Hu (fun u => u <? 0x110000) (fun us => XUnits (strip (takeN n us)))).
    + now apply (Hu scalar_value (fun us => XUnits (strip (takeN n us)))).
    + destruct Hacc as [ Hc | (_ & [=]) ]. apply (Ht (fun s => XStr (fit_chars n s))); [ congruence | reflexivity ].
  - apply accepts_array_inv in Hacc as (d' & -> & Hacc). cbn [total]. destruct (N.eq_0_gt_0_cases n) as [ -> | Hn ].
    { left. split; auto. intros b Hl Hb. cbn [decode N.to_nat pieces map all_some]. eexists; reflexivity. }
    destruct (IH _ Hacc) as [ (H1 & H2) | (H1 & b' & Hl & Hb & Hd) ].
    + left. split; auto. intros b Hl' Hb'. cbn [decode size] in *.
      enough (G : exists l, all_some (map (decode t d') (pieces (N.to_nat n) (size d') b)) = Some l) by (destruct G as (l & ->); eexists; reflexivity).
      assert (F : Forall (fun p => lenN p = size d' /\ bytes_ok p) (pieces (N.to_nat n) (size d') b)).
      { apply Forall_forall. intros x Hx. eapply pieces_in; eauto. lia. }
      induction F as [ | p l (F1 & F2) F IHF ]; [ eexists; reflexivity | ]. cbn [map all_some]. destruct (H2 p F1 F2) as (v & ->). destruct IHF as (r & ->). eauto.
    + right. split; [ intros [ E | E ]; [ lia | contradiction ] | ]. exists (b' ++ repeatN 0 ((n - 1) * size d')). cbn [size decode].
      split; [ rewrite lenN_app, lenN_repeatN; nia | ]. split; [ apply Forall_app; split; auto; apply zeros_ok | ].
      replace (N.to_nat n) with (S (N.to_nat (n - 1))) by lia. cbn [pieces map all_some]. rewrite takeN_app by auto. now rewrite Hd.
  - apply accepts_struct_inv in Hacc as (ds & -> & Hacc). rewrite total_struct.
    enough (G : total_fields fs ds /\ (forall b, lenN b = size_fields ds -> bytes_ok b -> exists l, decode_fields fs ds b = Some l)
      \/ ~ total_fields fs ds /\ exists b, lenN b = size_fields ds /\ bytes_ok b /\ decode_fields fs ds b = None).
    { destruct G as [ (G1 & G2) | (G1 & b & G2 & G3 & G4) ]; [ left | right ]; split; auto.
      - intros b Hl Hb. rewrite decode_struct. destruct (G2 b Hl Hb) as (l & ->). eexists; reflexivity.
      - exists b. rewrite size_record, decode_struct, G4. auto. }
    revert ds Hacc. induction IH as [ | (name, t) fs H IH IHfs ]; intros [ | (name', d) ds ] Hacc; try (now destruct Hacc).
    { left. split; [ exact I | ]. intros b _ _. eexists; reflexivity. }
    destruct Hacc as (_ & Hx & Hacc). cbn [total_fields decode_fields size_fields]. fold total_fields decode_fields size_fields. cbn [snd] in H.
    destruct (H _ Hx) as [ (H1 & H2) | (H1 & b' & Hl & Hb & Hd) ].
    + destruct (IHfs _ Hacc) as [ (H3 & H4) | (H3 & b' & Hl & Hb & Hd) ].
      * left. split; auto. intros b Hl Hb. destruct (H2 (takeN (size d) b)) as (v & ->); [ rewrite lenN_takeN; lia | now apply Forall_takeN | ].
        destruct (H4 (dropN (size d) b)) as (l & ->); [ rewrite lenN_dropN; lia | now apply Forall_dropN | ]. eauto.
      * right. split; [ tauto | ]. exists (repeatN 0 (size d) ++ b'). split; [ rewrite lenN_app, lenN_repeatN; lia | ]. split; [ apply Forall_app; split; auto; apply zeros_ok | ].
        rewrite takeN_app, dropN_app, Hd by apply lenN_repeatN. now destruct (decode _ _ _).
    + right. split; [ tauto | ]. exists (b' ++ repeatN 0 (size_fields ds)). split; [ rewrite lenN_app, lenN_repeatN; lia | ]. split; [ apply Forall_app; split; auto; apply zeros_ok | ].
      rewrite takeN_app, Hd by auto. reflexivity.
Qed.

Lemma late_or c t : forall d, wf_dtype d -> strings_fit (c_usize_max c) d -> accepts (c_usize_max c) Reading t d ->
  late t d /\ only_at_end t d \/ ~ late t d /\ early t d.
Proof.
  induction t as [ t Ha Hs | n t IH | fs IH ] using rty_rect'; intros d Hw Hfit Hacc.
  - pose proof Hacc as Hacc'. pose proof (proj2 (reader_accepts c t d) Hacc) as (rd & Hrd). apply (accepts_scalar _ _ _ _ (conj Ha Hs)) in Hacc as (ts & -> & Hacc).
    assert (Hall : every t (DPlain ts) -> only_at_end t (DPlain ts)) by (intros H b Hl Hb Hd; destruct (H b Hl Hb); congruence).
    assert (Hu : ts_char ts = TUnicodeStr -> (forall bs msg, unreadable t (DPlain ts) bs msg -> 4 <= lenN bs) ->
      (2 <= ts_size ts -> exists msg, unreadable t (DPlain ts) (ones 4) msg) ->
      ts_size ts <= 1 /\ only_at_end t (DPlain ts) \/ ~ ts_size ts <= 1 /\ early t (DPlain ts)).
    { intros Hc Hlen Hex. assert (Hz : size (DPlain ts) = 4 * ts_size ts) by (cbn [size]; unfold scalar_size; now rewrite Hc).
      destruct (N.le_gt_cases (ts_size ts) 1) as [ E | E ]; [ left | right ]; (split; [ lia | ]).
      - intros b Hl Hb Hd. destruct (one_unreadable c t _ rd b Hw Hfit Hrd Hb Hl) as [ (v & Hv & _) | (_ & bs & tail & msg & -> & Hx & _) ]; [ congruence | ].
        apply Hlen in Hx as Hx'. rewrite lenN_app in Hl. assert (tail = []) as -> by (apply lenN_0; lia). exists msg. now rewrite app_nil_r.
      - destruct Hex as (msg & Hx); [ lia | ]. exists (ones 4), (repeatN 0 (4 * ts_size ts - 4)), msg. split; [ rewrite lenN_app, Hz, lenN_repeatN; change (lenN (ones 4)) with 4; lia | ].
        split; [ apply Forall_app; split; [ apply ones_ok | apply zeros_ok ] | ]. split; [ exact Hx | ].
        intros E'. apply (f_equal lenN) in E'. rewrite lenN_repeatN, lenN_nil in E'. lia. }
    assert (Hw' : whole_item t (DPlain ts) -> only_at_end t (DPlain ts)).
    { intros Hwh b Hl Hb Hd. destruct (one_unreadable c t _ rd b Hw Hfit Hrd Hb Hl) as [ (v & Hv & _) | (_ & bs & tail & msg & -> & Hx & _) ]; [ congruence | ].
      pose proof (whole_consumes c t _ rd Hw Hfit Hrd Hwh (bs ++ tail) [] Hl Hb) as Hc. rewrite app_nil_r in Hc.
      assert (E : run (read_one c rd) (bs ++ tail) = (Err (EData msg), tail)) by (apply (unreadable_exact c t (DPlain ts)); auto; [ discriminate | eauto ]).
      rewrite E in Hc. cbn [snd] in Hc. subst tail. exists msg. now rewrite app_nil_r. }
    assert (Hl4 : (unit_vector t \/ char_vector t \/ t = RString /\ ts_char ts = TUnicodeStr) -> forall bs msg, unreadable t (DPlain ts) bs msg -> 4 <= lenN bs).
    { intros Hk bs msg Hx. inversion Hx; subst.
      - destruct Hk as [ [ | (? & ?) ] | [ [ | (? & ?) ] | (? & ?) ] ]; discriminate.
      - rewrite lenN_app. lia.
      - rewrite lenN_app. lia.
      - match goal with X : string_type t |- _ => destruct X as [ -> | (? & ->) ] end; destruct Hk as [ [ | (? & ?) ] | [ [ | (? & ?) ] | (? & ?) ] ]; congruence. }
    assert (Hx1 : unit_vector t -> 2 <= ts_size ts -> exists msg, unreadable t (DPlain ts) (ones 4) msg).
    { intros Hk Hn. eexists. eapply (unit_value t ts 0 [] (ones 4) _ Hk); try reflexivity; [ lia | constructor | rewrite ones_unit; lia | apply hex_shortest ]. }
    assert (Hx2 : char_vector t \/ t = RString /\ ts_char ts = TUnicodeStr -> 2 <= ts_size ts -> exists msg, unreadable t (DPlain ts) (ones 4) msg).
    { intros Hk Hn. eexists. eapply (char_value t ts 0 [] (ones 4) _ Hk); try reflexivity; [ lia | constructor | rewrite ones_unit; reflexivity | apply hex_shortest ]. }
    destruct t; try (now destruct (Ha _ _ eq_refl)); try (now destruct (Hs _ eq_refl)); cbn [late scalar_ok] in *; try (left; split; [ exact I | ]; apply Hw'; unfold whole_item; cbn; auto; fail).
    + apply Hu; auto. * apply Hl4. left. now left. * apply Hx1. now left.
    + apply Hu; auto. * apply Hl4. right. left. now left. * apply Hx2. left. now left.
    + destruct Hacc as [ Hc | Hc ].
      * left. split; [ congruence | ]. apply Hw'. right. exact Hc.
      * destruct (Hu Hc (Hl4 ltac:(auto)) (Hx2 ltac:(auto))) as [ (H1 & H2) | (H1 & H2) ]; [ left; tauto | right; tauto ].
    + apply Hu; auto. * apply Hl4. left. right. eauto. * apply Hx1. right. eauto.
    + apply Hu; auto. * apply Hl4. right. left. right. eauto. * apply Hx2. left. right. eauto.
  - apply accepts_array_inv in Hacc as (d' & -> & Hacc). cbn [late]. cbn [wf_dtype strings_fit] in Hw, Hfit. destruct Hw as (_ & Hw).
    destruct (N.eq_0_gt_0_cases n) as [ -> | Hn ].
    { left. split; auto. intros b Hl Hb Hd. cbn [decode N.to_nat pieces map all_some] in Hd. discriminate Hd. }
    destruct (total_or c t d' Hacc) as [ (T1 & T2) | (T1 & T2) ].
    + left. split; auto. destruct (total_or c (RArray n t) (DArray n d')) as [ (_ & G) | (G & _) ]; [ cbn; auto | | elim G; cbn; auto ].
      intros b Hl Hb Hd. destruct (G b Hl Hb). congruence.
    + pose proof (bad_size _ _ _ Hacc T2) as Hsz. destruct T2 as (b' & Hl' & Hb' & Hd').
      destruct (IH _ Hw Hfit Hacc) as [ (L1 & L2) | (L1 & bs & tail & msg & L2 & L3 & L4 & L5) ].
      * destruct (N.eq_dec n 1) as [ -> | Hn1 ].
        -- left. split; [ auto | ]. intros b Hl Hb Hd. cbn [decode size] in *. rewrite N.mul_1_l in Hl. change (N.to_nat 1) with 1%nat in Hd. cbn [pieces map all_some] in Hd.
           rewrite takeN_all in Hd by lia. destruct (decode t d' b) as [ v | ] eqn:E; [ discriminate Hd | ]. destruct (L2 b Hl Hb E) as (msg & Hx). exists msg.
           apply (element_value 1 t 1 d' [] b msg); auto; rewrite lenN_nil; lia.
        -- right. split; [ intros [ ? | [ ? | (? & _) ] ]; [ lia | contradiction | contradiction ] | ]. destruct (L2 b' Hl' Hb' Hd') as (msg & Hx).
           exists b', (repeatN 0 ((n - 1) * size d')), msg. cbn [size]. split; [ rewrite lenN_app, lenN_repeatN; nia | ]. split; [ apply Forall_app; split; auto; apply zeros_ok | ].
           split; [ apply (element_value n t n d' [] b' msg); auto; rewrite lenN_nil; lia | ]. intros E. apply (f_equal lenN) in E. rewrite lenN_repeatN, lenN_nil in E. nia.
      * right. split; [ intros [ ? | [ ? | (_ & ?) ] ]; [ lia | contradiction | contradiction ] | ].
        exists bs, (tail ++ repeatN 0 ((n - 1) * size d')), msg. cbn [size]. rewrite app_assoc. split; [ rewrite lenN_app, lenN_repeatN; nia | ]. split; [ apply Forall_app; split; auto; apply zeros_ok | ].
        split; [ apply (element_value n t n d' [] bs msg); auto; rewrite lenN_nil; lia | ]. now destruct tail.
  - apply accepts_struct_inv in Hacc as (ds & -> & Hacc). rewrite late_struct. unfold only_at_end, early. rewrite size_record.
    revert ds Hw Hfit Hacc. induction IH as [ | (name, t) fs H IH IHfs ]; intros [ | (name', d) ds ] Hw Hfit Hacc; try (now destruct Hacc).
    { left. split; [ exact I | ]. intros b _ _ Hd. discriminate Hd. }
    destruct Hacc as (_ & Hx & Hacc). cbn [late_fields size_fields]. fold late_fields size_fields. cbn [snd] in H. destruct Hw as (_ & Hw & Hws), Hfit as (Hfit & Hfits).
    destruct (total_or c t d Hx) as [ (T1 & T2) | (T1 & T2) ].
    + destruct (IHfs ds Hws Hfits Hacc) as [ (L1 & L2) | (L1 & bs & tail & msg & L2 & L3 & L4 & L5) ].
      * left. split; [ auto | ]. intros b Hl Hb Hd. rewrite decode_struct in Hd. cbn [decode_fields] in Hd. fold decode_fields in Hd.
        destruct (T2 (takeN (size d) b)) as (v & Hv); [ rewrite lenN_takeN; lia | now apply Forall_takeN | ]. rewrite Hv in Hd.
        destruct (L2 (dropN (size d) b)) as (msg & Hu); [ rewrite lenN_dropN; lia | now apply Forall_dropN | rewrite decode_struct; destruct (decode_fields fs ds (dropN (size d) b)); [ discriminate Hd | reflexivity ] | ].
        exists msg. apply unreadable_cons. right. exists (takeN (size d) b), (dropN (size d) b), v. rewrite takeN_dropN. split; auto. split; [ rewrite lenN_takeN; lia | auto ].
      * right. assert (Hne : 0 < lenN tail) by (destruct tail; [ congruence | rewrite lenN_cons; lia ]). split.
        { intros [ (_ & ?) | (_ & Hz) ]; [ contradiction | ]. apply sizes_zero in Hz. rewrite lenN_app in L2. lia. }
        destruct (zeros_decode _ _ _ Hx) as (v & Hv). exists (repeatN 0 (size d) ++ bs), tail, msg. rewrite <- app_assoc. split; [ rewrite lenN_app, lenN_repeatN; lia | ].
        split; [ apply Forall_app; split; auto; apply zeros_ok | ]. split; [ | auto ]. apply unreadable_cons. right. exists (repeatN 0 (size d)), bs, v. split; auto. split; [ apply lenN_repeatN | auto ].
    + destruct T2 as (b' & Hl' & Hb' & Hd'). destruct (H d Hw Hfit Hx) as [ (L1 & L2) | (L1 & bs & tail & msg & L2 & L3 & L4 & L5) ].
      * destruct (N.eq_0_gt_0_cases (size_fields ds)) as [ E | E ].
        -- left. split; [ right; split; auto; now apply sizes_zero | ]. intros b Hl Hb Hd. rewrite decode_struct in Hd. cbn [decode_fields] in Hd. fold decode_fields in Hd.
           rewrite E, N.add_0_r in Hl. rewrite takeN_all, dropN_all in Hd by lia. destruct (decode t d b) as [ v | ] eqn:Ed.
           ++ exfalso. destruct (zeros_decode (c_usize_max c) (RStruct fs) (DRecord ds) Hacc) as (w & Hz). rewrite size_record, E, repeatN_0, decode_struct in Hz.
              destruct (decode_fields fs ds []); [ discriminate Hd | discriminate Hz ].
           ++ destruct (L2 b Hl Hb Ed) as (msg & Hu). exists msg. apply unreadable_cons. now left.
        -- right. split; [ intros [ (? & _) | (_ & Hz) ]; [ contradiction | apply sizes_zero in Hz; lia ] | ]. destruct (L2 b' Hl' Hb' Hd') as (msg & Hu).
           exists b', (repeatN 0 (size_fields ds)), msg. split; [ rewrite lenN_app, lenN_repeatN; lia | ]. split; [ apply Forall_app; split; auto; apply zeros_ok | ].
           split; [ apply unreadable_cons; now left | ]. intros Ez. apply (f_equal lenN) in Ez. rewrite lenN_repeatN, lenN_nil in Ez. lia.
      * right. split; [ intros [ (? & _) | (? & _) ]; contradiction | ]. exists bs, (tail ++ repeatN 0 (size_fields ds)), msg. rewrite app_assoc.
        split; [ rewrite lenN_app, lenN_repeatN; lia | ]. split; [ apply Forall_app; split; auto; apply zeros_ok | ]. split; [ apply unreadable_cons; now left | ]. now destruct tail.
Qed.

Theorem late_exact c t d : wf_dtype d -> strings_fit (c_usize_max c) d -> accepts (c_usize_max c) Reading t d -> late t d <-> only_at_end t d.
Proof.
  intros Hw Hs Hacc. destruct (late_or c t d Hw Hs Hacc) as [ (H1 & H2) | (H1 & bs & tail & msg & H2 & H3 & H4 & H5) ]; [ tauto | ]. split; [ contradiction | ]. intros H. exfalso.
  destruct (proj2 (reader_accepts c t d) Hacc) as (rd & Hrd).
  destruct (one_unreadable c t d rd (bs ++ tail) Hw Hs Hrd H3 H2) as [ (v & _ & Hn) | (Hd & ? & ? & ? & _ & _ & Hq) ]; [ eapply Hn; eauto | ].
  destruct (H _ H2 H3 Hd) as (msg' & Hu). destruct (Hq bs tail msg eq_refl H4) as (E1 & _). destruct (Hq (bs ++ tail) [] msg') as (E2 & _); [ now rewrite app_nil_r | exact Hu | ].
  apply H5. apply (app_inv_head bs). rewrite app_nil_r. congruence.
Qed.
Theorem total_exact c t d : accepts (c_usize_max c) Reading t d ->
  total t d <-> forall b, lenN b = size d -> bytes_ok b -> exists v, decode t d b = Some v.
Proof.
  intros Hacc. destruct (total_or c t d Hacc) as [ (H1 & H2) | (H1 & b & Hl & Hb & Hd) ]; [ unfold every in H2; tauto | ]. split; [ contradiction | ].
  intros H. destruct (H b Hl Hb). congruence.
Qed.

(** * Files that are cut *)
Definition never_wrong (c : cfg) (t : rty) (d : dtype) : Prop := forall file h data blocks items p q f src' r calls j i v,
  bytes_ok file -> run (read_and_interpret c) file = (Ok h, data) -> h_dtype h = d -> data = List.concat blocks ->
  stored t d blocks (map Some items) -> lenN items = h_n_records h -> file = p ++ q -> q <> [] ->
  npy_new c {| cur_data := p; cur_pos := 0 |} = (Ok f, src') -> npy_data c t f = DOk r -> addressable c f ->
  nth_error calls j = Some (CReadAt i) -> nth_error (actual c calls r) j = Some (OItem v) -> nth_error items (N.to_nat i) = Some v.
Lemma history_nth m t d n data ks : forall a ss e j k s, history m t d n data ks a ss e -> nth_error ks j = Some k -> nth_error ss j = Some s ->
  exists a' b', step m t d n data k a' s b'.
Proof.
  induction ks as [ | k0 ks IH ]; intros a ss e j k s H; inversion H; subst; [ now destruct j | ].
  destruct j as [ | j ]; cbn [nth_error]; [ intros [= <-] [= <-]; eauto | eauto ].
Qed.

Lemma one_value_right c t d : strings_fit (c_usize_max c) d -> one_value t d -> never_wrong c t d.
Proof.
  intros Hs Hone file h data blocks items p q f src' r calls j i v Hb Hrun Hd Hdata Hst Hlen Hfile Hq Hnew Hr Ha Hk Ho.
  assert (Hbp : bytes_ok p) by (rewrite Hfile in Hb; now apply Forall_app in Hb).
  assert (Hh : nf_header f = h).
  { rewrite <- Hd in Hst. pose proof (truncated c t file h data blocks items p q ltac:(now rewrite Hd) Hb Hrun Hdata Hst Hlen Hfile Hq) as H. cbn zeta in H. rewrite Hnew in H. apply H. }
  rewrite perform_actual in Ho.
  destruct (perform c calls r) as (ss, r') eqn:Ep. cbn [fst] in Ho. rewrite nth_error_map in Ho. destruct (nth_error ss j) as [ s | ] eqn:Es; [ | discriminate Ho ].
  cbn [option_map] in Ho. apply Some_inj in Ho. destruct s; try discriminate Ho. injection Ho as ->.
  destruct (history_total c t {| cur_data := p; cur_pos := 0 |} f src' r calls Hbp Hnew Hr Ha) as (ss' & i' & p' & Hh' & _).
  pose proof Hh' as Hx. apply (history_exact c t {| cur_data := p; cur_pos := 0 |} f src' r calls ss' i' p' Hbp Hnew Hr Ha) in Hx as (r'' & Hp & _). rewrite Ep in Hp. apply pair_inj in Hp as (<- & _).
  destruct (history_nth _ _ _ _ _ _ _ _ _ _ _ _ Hh' Hk Es) as ((i0, p0) & b0 & Hstep). rewrite Hh, Hd in Hstep. cbn [cur_data] in Hstep.
  inversion Hstep; subst. match goal with X : attempt _ _ _ _ _ |- _ => rename X into Hat end. match goal with X : i < h_n_records _ |- _ => rename X into Hi end.
  destruct (nth_error items (N.to_nat i)) as [ w | ] eqn:Ew; [ | apply nth_error_None in Ew; unfold lenN in Hlen; lia ].
  destruct (stored_block t _ blocks (map Some items) (N.to_nat i) (Some w) Hst) as (b1 & _ & L1 & B1 & D1 & _); [ rewrite nth_error_map, Ew; reflexivity | ].
  f_equal. inversion Hat as [ b2 rest ? E2 L2 D2 | | ]; subst. apply (Hone b1 b2 w v L1 B1 L2); auto.
  assert (Hbd : bytes_ok (dropN q0 p)) by now apply Forall_dropN. rewrite E2 in Hbd. now apply Forall_app in Hbd.
Qed.

Lemma right_one_value c t d : wf_dtype d -> top_level d -> short_header d (NDimensional [2]) -> strings_fit (c_usize_max c) d ->
  accepts (c_usize_max c) Reading t d -> (exists k, num_bytes c d = Some k) -> size d < 2 ^ 30 -> never_wrong c t d -> one_value t d.
Proof.
  intros Hw Ht Hsh Hs Hacc Hnb Hsz H b b' v v' L1 B1 L2 B2 D1 D2.
  destruct (N.eq_0_gt_0_cases (size d)) as [ E | E ]; [ rewrite E in *; apply lenN_0 in L1 as ->; apply lenN_0 in L2 as ->; congruence | ].
  destruct (some_header c t d 2 Hw Ht Hsh ltac:(reflexivity) Hacc Hnb) as (hdr & h & rd & H1 & H2 & H3 & H4 & H5 & H6 & H7).
  destruct (opened c t d h rd hdr b (H7 b) H3 H5 H6) as (O1 & O2 & O3).
  match type of O1 with _ = (Ok ?f0, _) => set (f := f0) in * end. match type of O2 with _ = DOk ?r0 => set (r := r0) in * end.
  assert (Ha : addressable c f).
  { change (2 ^ 30) with 1073741824 in Hsz. change (2 ^ 33) with 8589934592 in H2. split; [ unfold f; cbn [nf_header]; now rewrite H3 | ]. unfold f. cbn [nf_header nf_src cur_pos]. rewrite H3, H4.
    change (2 ^ 63) with 9223372036854775808. split; [ lia | right; lia ]. }
  assert (Hbp : bytes_ok (hdr ++ b)) by (apply Forall_app; auto).
  assert (Hh : exists s e, history (c_usize_max c) t d 2 (hdr ++ b) [CReadAt 1; CReadAt 1] (0, lenN hdr) [s; Got v] e).
  { destruct (run (read_one c rd) []) as (x, rest) eqn:Er. pose proof (run_attempt c t d rd [] x rest Hw Hs H6 (Forall_nil _) Er) as Hat. change (lenN [] - lenN rest) with (0 - lenN rest) in Hat. rewrite N.sub_0_l in Hat.
    exists (say_item x), (1 + 1, lenN hdr + size d).
    apply (history_call _ _ _ _ _ _ _ _ _ _ (1 + 1, lenN hdr + size d + 0)); [ | eapply history_call; [ | constructor ] ].
    - apply (at_there _ _ _ _ _ 0 (lenN hdr) 1 (lenN hdr + size d)); [ lia | lia | ]. rewrite dropN_all by (rewrite lenN_app; lia). exact Hat.
    - apply (at_there _ _ _ _ _ (1 + 1) (lenN hdr + size d + 0) 1 (lenN hdr)); [ lia | lia | ]. rewrite dropN_app by reflexivity. apply (attempt_item _ _ _ b []); auto. now rewrite app_nil_r. }
  destruct Hh as (s & (i', p') & Hh).
  assert (Hact : nth_error (actual c [CReadAt 1; CReadAt 1] r) 1 = Some (OItem v)).
  { rewrite <- H3, <- H4 in Hh. apply (history_exact c t {| cur_data := hdr ++ b; cur_pos := 0 |} f _ r _ _ _ _ Hbp O1 O2 Ha) in Hh as (r' & Hp & _). rewrite perform_actual, Hp. reflexivity. }
  pose proof (H (hdr ++ b ++ b') h (b ++ b') [b; b'] [v; v'] (hdr ++ b) b' f {| cur_data := hdr ++ b; cur_pos := lenN hdr |} r [CReadAt 1; CReadAt 1] 1%nat 1 v) as G.
  cbn [N.to_nat] in G. change (Pos.to_nat 1) with 1%nat in G. cbn [nth_error] in G. symmetry. apply Some_inj. apply G; auto.
  - apply Forall_app. split; auto. apply Forall_app. auto.
  - cbn [List.concat]. now rewrite app_nil_r.
  - repeat constructor; auto.
  - now rewrite app_assoc.
  - intros ->. rewrite lenN_nil in L2. lia.
Qed.
Theorem cut_wrong c t d : wf_dtype d -> top_level d -> short_header d (NDimensional [2]) -> strings_fit (c_usize_max c) d ->
  accepts (c_usize_max c) Reading t d -> (exists k, num_bytes c d = Some k) -> size d < 2 ^ 30 -> never_wrong c t d <-> one_value t d.
Proof. intros. split; [ now apply right_one_value | now apply one_value_right ]. Qed.
