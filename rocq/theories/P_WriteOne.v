(** [write_one] against [encode]. *)
From Verif Require Import M_Base M_Text M_TypeStr M_IO M_Header M_Serialize S_TypeStr S_DType S_Shape S_Header S_Text S_Elem
  P_Base P_Text P_IO P_Shape P_Header P_Number P_Elem P_ReadOne.
Open Scope N_scope.

(** An output that is either [o] or a failure; a panic only if [P]. *)
Definition outputs (P : Prop) (w : wout) (o : option bytes) : Prop :=
  P /\ (exists pre, w = (pre, Panic))
  \/ match o with Some bs => w = (bs, Ok tt) | None => exists pre e, w = (pre, Err e) end.

Lemma outputs_weaken (P Q : Prop) w o : (P -> Q) -> outputs P w o -> outputs Q w o.
Proof. intros H [ (HP & Hw) | Hw ]; [ left | right ]; auto. Qed.
Lemma outputs_seq P a b oa ob : outputs P a oa -> outputs P b ob ->
  outputs P (wseq a b) (match oa, ob with Some x, Some y => Some (x ++ y) | _, _ => None end).
Proof.
  intros [ (HP & pre & ->) | Ha ] Hb; [ left; split; [ exact HP | eexists; reflexivity ] | ].
  destruct oa as [ x | ].
  - subst a. unfold wseq. cbn [fst snd]. destruct Hb as [ (HP & pre & ->) | Hb ]; [ left; split; [ exact HP | eexists; reflexivity ] | ]. right. destruct ob as [ y | ].
    + subst b. reflexivity.
    + destruct Hb as (pre & e & ->). cbn. do 2 eexists; reflexivity.
  - right. destruct Ha as (pre & e & ->). cbn. do 2 eexists; reflexivity.
Qed.

Lemma outputs_emit P b : outputs P (wemit b) (Some b).
Proof. right. reflexivity. Qed.
Lemma outputs_zeros (P : Prop) c n : (isize_max c < n -> P) -> outputs P (wzeros c n) (Some (repeatN 0 n)).
Proof.
  intros H. unfold wzeros. destruct (N.ltb_spec (isize_max c) n); [ left; split; [ auto | eexists; reflexivity ] | apply outputs_emit ].
Qed.

Lemma outputs_units P c ts g l : ts_endianness ts <> Irrelevant -> Forall (fun u => u < 2 ^ 32) l ->
  outputs P (write_units c (swap_for c ts) g l) (if forallb g l then Some (utf32 (ts_endianness ts) l) else None).
Proof.
  intros He. induction 1 as [ | u l Hu Hl IH ]; [ right; reflexivity | ]. cbn [write_units forallb]. destruct (g u); cbn [andb].
  - rewrite write_bits_number by (congruence || exact Hu).
    pose proof (outputs_seq _ _ _ _ _ (outputs_emit P (number (ts_endianness ts) 4 u)) IH) as H.
    destruct (forallb g l); exact H.
  - right. cbn. do 2 eexists; reflexivity.
Qed.
Lemma utf32_app e a b : utf32 e (a ++ b) = utf32 e a ++ utf32 e b.
Proof. apply flat_map_app. Qed.
Lemma forallb_true {A} (l : list A) : forallb (fun _ => true) l = true.
Proof. induction l; auto. Qed.

Lemma zeros_u32 n : Forall (fun u => u < 2 ^ 32) (repeatN 0 n).
Proof. apply Forall_repeatN. reflexivity. Qed.
Lemma outputs_padded P c ts g l m e : ts_endianness ts <> Irrelevant -> Forall (fun u => u < 2 ^ 32) l ->
  outputs P (if m <? lenN l then wfail e
           else wseq (write_units c (swap_for c ts) g l) (write_units c (swap_for c ts) (fun _ => true) (repeatN 0 (m - lenN l))))
          (if forallb g l then omap (utf32 (ts_endianness ts)) (padded m l) else None).
Proof.
  intros He Hl. unfold padded. destruct (N.ltb_spec m (lenN l)).
  - replace (lenN l <=? m) with false by lia. right. destruct (forallb g l); cbn; do 2 eexists; reflexivity.
  - replace (lenN l <=? m) with true by lia.
    pose proof (outputs_units P c ts g l He Hl) as H1.
    pose proof (outputs_units P c ts (fun _ => true) (repeatN 0 (m - lenN l)) He (zeros_u32 _)) as H2. rewrite forallb_true in H2.
    pose proof (outputs_seq _ _ _ _ _ H1 H2) as H3. cbn [omap]. rewrite utf32_app. destruct (forallb g l); exact H3.
Qed.
Lemma outputs_str32 P c ts e l : ts_endianness ts <> Irrelevant -> Forall (fun u => u < 2 ^ 32) l -> forall m,
  outputs P (write_str32 c (swap_for c ts) e l m) (omap (utf32 (ts_endianness ts)) (padded m l)).
Proof.
  intros He. induction 1 as [ | u l Hu Hl IH ]; intros m; cbn [write_str32].
  - unfold padded. replace (lenN [] <=? m) with true by (cbn; lia). cbn [omap app]. replace (m - lenN []) with m by (cbn; lia).
    pose proof (outputs_units P c ts (fun _ => true) (repeatN 0 m) He (zeros_u32 _)) as H2. now rewrite forallb_true in H2.
  - destruct (N.eqb_spec m 0) as [ -> | Hm ].
    + unfold padded. rewrite lenN_cons. replace (1 + lenN l <=? 0) with false by lia. right. cbn. do 2 eexists; reflexivity.
    + rewrite write_bits_number by (congruence || exact Hu).
      pose proof (outputs_seq _ _ _ _ _ (outputs_emit P (number (ts_endianness ts) 4 u)) (IH (m - 1))) as H.
      unfold padded in *. rewrite lenN_cons.
      destruct (N.leb_spec (lenN l) (m - 1)).
      * replace (1 + lenN l <=? m) with true by lia. cbn [omap app] in *. replace (m - (1 + lenN l)) with (m - 1 - lenN l) by lia. exact H.
      * replace (1 + lenN l <=? m) with false by lia. exact H.
Qed.

Lemma scalar_u32 u : is_scalar u = true -> u < 2 ^ 32.
Proof. unfold is_scalar. change (2 ^ 32) with 4294967296. lia. Qed.
Lemma scalars_u32 l : Forall (fun u => is_scalar u = true) l -> Forall (fun u => u < 2 ^ 32) l.
Proof. apply Forall_impl. apply scalar_u32. Qed.

Definition writes_item (c : cfg) (t : rty) (d : dtype) : Prop :=
  forall w, writer c t d = DOk w -> forall v, has_type t v -> outputs (~ strings_fit (c_usize_max c) d) (write_one c w v) (encode t d v).

Lemma pow256 n : 2 ^ (8 * n) = 256 ^ n.
Proof. now rewrite N.pow_mul_r. Qed.
Lemma to_bits_bound w z : to_bits w z < 256 ^ wbytes w.
Proof.
  unfold to_bits. rewrite <- pow256.
  assert (H : (0 < 2 ^ (8 * Z.of_N (wbytes w)))%Z) by (apply Z.pow_pos_nonneg; lia).
  pose proof (Z.mod_pos_bound z _ H). replace (8 * Z.of_N (wbytes w))%Z with (Z.of_N (8 * wbytes w)) in * by lia.
  rewrite <- (N2Z.inj_pow 2) in *. lia.
Qed.

Lemma outputs_bytes (P : Prop) c m l e : (forall n, n <= m -> isize_max c < n -> P) ->
  outputs P (if (m <? lenN l) || ((lenN l <? m) && negb true) then wfail e
             else wseq (wemit l) (wzeros c (m - lenN l))) (padded m l).
Proof.
  intros HP. unfold padded. cbn [negb]. rewrite andb_false_r, orb_false_r. destruct (N.ltb_spec m (lenN l)).
  - replace (lenN l <=? m) with false by lia. right. cbn. do 2 eexists; reflexivity.
  - replace (lenN l <=? m) with true by lia. pose proof (outputs_seq P _ _ _ _ (outputs_emit P l) (outputs_zeros P c (m - lenN l) (HP _ (N.le_sub_l _ _)))) as H'. exact H'.
Qed.
Lemma outputs_raw P m l e : outputs P (if (m <? lenN l) || ((lenN l <? m) && negb false) then wfail e
           else wseq (wemit l) (wemit [])) (if lenN l =? m then Some l else None).
Proof.
  right. cbn [negb]. rewrite andb_true_r. destruct (N.eqb_spec (lenN l) m).
  - replace (m <? lenN l) with false by lia. replace (lenN l <? m) with false by lia. cbn. now rewrite app_nil_r.
  - replace ((m <? lenN l) || (lenN l <? m)) with true by lia. cbn. do 2 eexists; reflexivity.
Qed.
Lemma outputs_str8 (P : Prop) c m l e : (forall n, n <= m -> isize_max c < n -> P) ->
  outputs P (if m <? lenN l then wfail e
      else wseq (wemit l) (if lenN l <? m then wzeros c (m - lenN l) else wemit [])) (padded m l).
Proof.
  intros HP. unfold padded. destruct (N.ltb_spec m (lenN l)).
  - replace (lenN l <=? m) with false by lia. right. cbn. do 2 eexists; reflexivity.
  - replace (lenN l <=? m) with true by lia. destruct (N.ltb_spec (lenN l) m).
    + pose proof (outputs_seq P _ _ _ _ (outputs_emit P l) (outputs_zeros P c (m - lenN l) (HP _ (N.le_sub_l _ _)))) as H'. exact H'.
    + right. replace (m - lenN l) with 0 by lia. reflexivity.
Qed.

Lemma writes_scalar c t d : wf_dtype d -> (forall n t', t <> RArray n t') -> (forall fs, t <> RStruct fs) -> writes_item c t d.
Proof.
  intros Hw Ha Hs w Hr v Hv.
  destruct t; try (now destruct (Ha _ _ eq_refl)); try (now destruct (Hs _ eq_refl)); cbn [writer] in Hr;
    destruct v; try (now destruct Hv); cbn [has_type] in Hv.
  - apply dbind_ok in Hr as (sw & H & [= <-]). apply prim_swap_ok in H as (ts & -> & Hp & ->). apply prim_supports_ok in Hp as (Hn & Hc).
    cbn [wf_dtype] in Hw. pose proof (legal_irrelevant ts Hw) as Hi.
    assert (Hi' : ts_endianness ts = Irrelevant -> wbytes w0 = 1).
    { intros E. specialize (Hi E). rewrite <- Hn. destruct signed; [ | now rewrite Hc in Hi ].
      destruct Hc as [ Hc | (_ & [ Hc | Hc ]) ]; rewrite Hc in Hi; [ exact Hi | destruct Hi | destruct Hi ]. }
    right. cbn [write_one encode]. rewrite write_bits_number by (auto using to_bits_bound). reflexivity.
  - apply dbind_ok in Hr as (sw & H & [= <-]). apply prim_swap_ok in H as (ts & -> & Hp & ->). apply prim_supports_ok in Hp as (Hn & Hc).
    cbn [wf_dtype] in Hw. pose proof (legal_irrelevant ts Hw) as Hi. rewrite Hc in Hi.
    right. cbn [write_one encode]. rewrite write_bits_number; [ reflexivity | tauto | now rewrite <- pow256 ].
  - apply dbind_ok in Hr as (sw & H & [= <-]). apply prim_swap_ok in H as (ts & -> & Hp & ->). right. reflexivity.
  - apply dbind_ok in Hr as (sw & H & [= <-]). apply complex_swap_ok in H as (ts & -> & Hn & Hc & ->).
    cbn [wf_dtype] in Hw. pose proof (legal_irrelevant ts Hw) as Hi. rewrite Hc in Hi. rewrite !pow256 in Hv.
    right. cbn [write_one encode]. rewrite !write_bits_number; tauto.
  - apply dbind_ok in Hr as (i & H & [= <-]). apply byte_vec_ok in H as (ts & -> & Hm & [ (Hc & ->) | (Hc & ->) ]); cbn [fst snd write_one encode].
    all: rewrite Hc. { apply outputs_bytes. intros n0; apply too_long; auto. } apply outputs_raw.
  - apply dbind_ok in Hr as ([] & H & [= <-]). apply fixed_bytes_ok in H as (ts & -> & Hm & Hc & Hn). right. reflexivity.
  - apply dbind_ok in Hr as (i & H & [= <-]). apply arr_byte_vec_ok in H as (ts & -> & Hm & [ (Hc & ->) | (Hc & Hn & ->) ]); cbn [fst snd write_one encode].
    all: rewrite Hc. { apply outputs_bytes. intros n0; apply too_long; auto. } apply outputs_raw.
  - apply dbind_ok in Hr as (p & H & [= <-]). apply unicode_ok in H as (ts & -> & Hm & Hc & ->). cbn [fst snd].
    cbn [wf_dtype] in Hw. pose proof (legal_irrelevant ts Hw) as Hi. rewrite Hc in Hi. cbn [write_one encode]. now apply outputs_padded.
  - apply dbind_ok in Hr as (p & H & [= <-]). apply unicode_ok in H as (ts & -> & Hm & Hc & ->). cbn [fst snd].
    cbn [wf_dtype] in Hw. pose proof (legal_irrelevant ts Hw) as Hi. rewrite Hc in Hi. cbn [write_one encode].
    pose proof (outputs_padded (~ strings_fit (c_usize_max c) (DPlain ts)) c ts (fun _ => true) us (ts_size ts) (bad_length (lenN us) ts) Hi (scalars_u32 _ Hv)) as H. now rewrite forallb_true in H.
  - apply str_writer_ok in Hr as (ts & -> & Hm & [ (Hc & ->) | (Hc & ->) ]); cbn [encode write_one]; rewrite Hc.
    + cbn [wf_dtype] in Hw. pose proof (legal_irrelevant ts Hw) as Hi. rewrite Hc in Hi. apply outputs_str32; auto. now apply scalars_u32.
    + apply outputs_str8. intros n0; apply too_long; auto.
  - apply dbind_ok in Hr as (p & H & [= <-]). apply unicode_ok in H as (ts & -> & Hm & Hc & ->). cbn [fst snd].
    cbn [wf_dtype] in Hw. pose proof (legal_irrelevant ts Hw) as Hi. rewrite Hc in Hi. cbn [write_one encode]. now apply outputs_padded.
  - apply dbind_ok in Hr as (p & H & [= <-]). apply unicode_ok in H as (ts & -> & Hm & Hc & ->). cbn [fst snd].
    cbn [wf_dtype] in Hw. pose proof (legal_irrelevant ts Hw) as Hi. rewrite Hc in Hi. cbn [write_one encode].
    pose proof (outputs_padded (~ strings_fit (c_usize_max c) (DPlain ts)) c ts (fun _ => true) us (ts_size ts) (bad_length (lenN us) ts) Hi (scalars_u32 _ (proj1 Hv))) as H. now rewrite forallb_true in H.
  - apply str_writer_ok in Hr as (ts & -> & Hm & [ (Hc & ->) | (Hc & ->) ]); cbn [encode write_one]; rewrite Hc.
    + cbn [wf_dtype] in Hw. pose proof (legal_irrelevant ts Hw) as Hi. rewrite Hc in Hi. apply outputs_str32; auto. now apply scalars_u32.
    + apply outputs_str8. intros n0; apply too_long; auto.
Qed.

Lemma writes_fields (P : Prop) c fs : Forall (fun f => forall d, wf_dtype d -> writes_item c (snd f) d) fs ->
  forall ds ws l, (~ strings_fit_fields (c_usize_max c) ds -> P) -> map fst ds = map fst fs -> Forall (fun f => wf_dtype (snd f)) ds -> writers c fs (map snd ds) = DOk ws -> has_types fs l ->
  outputs P (write_fields c ws l) (encode_fields fs ds l).
Proof.
  induction 1 as [ | (name, t) fs Hf Hfs IH ]; intros [ | (name', d) ds ] rs l HP Hn Hw Hr Hl; try discriminate Hn; cbn [map fst snd] in *.
  - injection Hr as <-. destruct l; [ right; reflexivity | destruct Hl ].
  - injection Hn as -> Hn. apply Forall_cons_iff in Hw as (Hw & Hws). cbn [snd] in Hw. destruct l as [ | x l ]; [ destruct Hl | ].
    cbn [has_types] in Hl. fold has_types in Hl. destruct Hl as (Hx & Hl).
    cbn [writers] in Hr. fold (writers c) in Hr. apply dbind_ok in Hr as (r & Hr & H). apply dbind_ok in H as (rs' & Hrs & H). injection H as <-.
    cbn [write_fields encode_fields strings_fit_fields] in *. fold (write_fields c). fold encode_fields.
    apply outputs_seq; [ eapply outputs_weaken; [ | now apply (Hf d Hw r Hr) ]; tauto | apply IH; tauto ].
Qed.

Lemma writes_all c t : forall d, wf_dtype d -> writes_item c t d.
Proof.
  induction t as [ t Ha Hs | n t IH | fs IH ] using rty_rect'; intros d Hw.
  - now apply writes_scalar.
  - intros w Hr v Hv. cbn [writer] in Hr. apply dbind_ok in Hr as (ty & Hty & H). apply array_inner_ok in Hty as ->.
    apply dbind_ok in H as (w' & Hr & [= <-]). destruct Hw as (Hn & Hw). destruct v; try (now destruct Hv).
    cbn [has_type] in Hv. destruct Hv as (_ & Hv). rewrite encode_array. cbn [write_one].
    induction Hv as [ | x l Hx Hl IHl ]; [ right; reflexivity | ]. cbn [fold_right encode_seq]. fold (encode_seq t ty).
    apply outputs_seq; [ now apply (IH ty Hw w' Hr) | exact IHl ].
  - intros w Hr v Hv. rewrite writer_struct in Hr. apply dbind_ok in Hr as (dts & Hd & H). apply extract_ok in Hd as (ds & -> & Hn & ->).
    apply dbind_ok in H as (ws & Hws & [= <-]). destruct v; try (now destruct Hv). rewrite has_type_struct in Hv.
    rewrite encode_struct, write_one_struct, strings_fit_record. eapply writes_fields; eauto.
    rewrite wf_record in Hw. eapply Forall_impl; [ | exact Hw ]. cbv beta. tauto.
Qed.
