(** Single items: the model's readers and writers against S_Elem.v. *)
From Verif Require Import M_Base M_Text M_TypeStr M_IO M_Header M_Serialize S_TypeStr S_DType S_Shape S_Header S_Text S_Elem
  P_Base P_Text P_IO P_Shape P_Header P_Number.
Open Scope N_scope.

(** * Induction over Rust types *)
Lemma rty_rect' (P : rty -> Prop)
  (Hscalar : forall t, (forall n t', t <> RArray n t') -> (forall fs, t <> RStruct fs) -> P t)
  (Harray : forall n t, P t -> P (RArray n t))
  (Hstruct : forall fs, Forall (fun f => P (snd f)) fs -> P (RStruct fs)) : forall t, P t.
Proof.
  fix IH 1. intros [ | | | | | | | | | | | | | n t | fs ]; try (apply Hscalar; discriminate).
  - apply Harray, IH.
  - apply Hstruct. induction fs as [ | (name, t) fs IHfs ]; constructor; [ exact (IH t) | exact IHfs ].
Qed.

(** * Names for the local recursions *)
Definition readers (c : cfg) :=
  fix go (fs : list (text * rty)) (dts : list dtype) : dres (list treader) :=
    match fs, dts with
    | (_, t) :: fs', d :: dts' => let? r := reader c t d in let? rs := go fs' dts' in DOk (r :: rs)
    | _, _ => DOk []
    end.
Lemma reader_struct c fs d : reader c (RStruct fs) d =
  let? dts := extract_field_dtypes (map fst fs) d in let? rs := readers c fs dts in DOk (RdStruct rs).
Proof. reflexivity. Qed.
Definition writers (c : cfg) :=
  fix go (fs : list (text * rty)) (dts : list dtype) : dres (list twriter) :=
    match fs, dts with
    | (_, t) :: fs', d :: dts' => let? r := writer c t d in let? rs := go fs' dts' in DOk (r :: rs)
    | _, _ => DOk []
    end.
Lemma writer_struct c fs d : writer c (RStruct fs) d =
  let? dts := extract_field_dtypes (map fst fs) d in let? rs := writers c fs dts in DOk (WrStruct rs).
Proof. reflexivity. Qed.
Definition read_fields (c : cfg) :=
  fix go (rs : list treader) : rprog (list val) :=
    match rs with
    | [] => RRet []
    | r :: rs' => let! x := read_one c r in let! xs := go rs' in RRet (x :: xs)
    end.
Lemma read_one_struct c rs : read_one c (RdStruct rs) = let! l := read_fields c rs in RRet (XRec l).
Proof. reflexivity. Qed.
Definition write_fields (c : cfg) :=
  fix go (ws : list twriter) (l : list val) : wout :=
    match ws, l with
    | [], [] => wemit []
    | w :: ws', x :: l' => wseq (write_one c w x) (go ws' l')
    | _, _ => wbad
    end.
Lemma write_one_struct c ws l : write_one c (WrStruct ws) (XRec l) = write_fields c ws l.
Proof. reflexivity. Qed.
Definition encode_seq (t : rty) (d : dtype) :=
  fix go (l : list val) : option bytes :=
    match l with
    | [] => Some []
    | x :: l' => match encode t d x, go l' with Some a, Some b => Some (a ++ b) | _, _ => None end
    end.
Definition encode_fields :=
  fix go (fs : list (text * rty)) (ds : list (text * dtype)) (l : list val) : option bytes :=
    match fs, ds, l with
    | [], [], [] => Some []
    | (_, t') :: fs', (_, d') :: ds', x :: l' =>
      match encode t' d' x, go fs' ds' l' with Some a, Some b => Some (a ++ b) | _, _ => None end
    | _, _, _ => None
    end.
Lemma encode_array n m t d l : encode (RArray n t) (DArray m d) (XSeq l) = encode_seq t d l.
Proof. reflexivity. Qed.
Lemma encode_struct fs ds l : encode (RStruct fs) (DRecord ds) (XRec l) = encode_fields fs ds l.
Proof. reflexivity. Qed.
Definition decode_fields :=
  fix go (fs : list (text * rty)) (ds : list (text * dtype)) (bs : bytes) : option (list val) :=
    match fs, ds with
    | [], [] => Some []
    | (_, t') :: fs', (_, d') :: ds' =>
      match decode t' d' (takeN (size d') bs), go fs' ds' (dropN (size d') bs) with
      | Some v, Some vs => Some (v :: vs)
      | _, _ => None
      end
    | _, _ => None
    end.
Lemma decode_struct fs ds bs : decode (RStruct fs) (DRecord ds) bs = omap XRec (decode_fields fs ds bs).
Proof. reflexivity. Qed.
Definition accepts_fields (m : N) (dir : direction) :=
  fix go (fs : list (text * rty)) (ds : list (text * dtype)) : Prop :=
    match fs, ds with
    | [], [] => True
    | (name, t') :: fs', (name', d') :: ds' => name = name' /\ accepts m dir t' d' /\ go fs' ds'
    | _, _ => False
    end.
Lemma accepts_struct m dir fs ds : accepts m dir (RStruct fs) (DRecord ds) = accepts_fields m dir fs ds.
Proof. reflexivity. Qed.
Definition size_fields :=
  fix go (fs : list (text * dtype)) : N := match fs with [] => 0 | (_, ty) :: fs' => size ty + go fs' end.
Lemma size_record fs : size (DRecord fs) = size_fields fs.
Proof. reflexivity. Qed.
Definition has_types :=
  fix go (fs : list (text * rty)) (l : list val) : Prop :=
    match fs, l with
    | [], [] => True
    | (_, t) :: fs', x :: l' => has_type t x /\ go fs' l'
    | _, _ => False
    end.
Lemma has_type_struct fs l : has_type (RStruct fs) (XRec l) = has_types fs l.
Proof. reflexivity. Qed.

Lemma eqb_texts_eq a : forall b, eqb_texts a b = true <-> a = b.
Proof.
  induction a as [ | x a IH ]; intros [ | y b ]; cbn [eqb_texts]; split; try discriminate; auto.
  - rewrite andb_true_iff, eqb_list_eq, IH. intros [-> ->]. reflexivity.
  - intros [= -> ->]. now rewrite andb_true_iff, eqb_list_eq, IH.
Qed.

Lemma dbind_ok {A B} (m : dres A) (k : A -> dres B) b : dbind m k = DOk b <-> exists a, m = DOk a /\ k a = DOk b.
Proof. destruct m; cbn; split; try (intros (? & ? & ?); congruence); try discriminate. intros H; eauto. Qed.

(** * Which dtypes are accepted *)
Ltac dsimp := repeat match goal with
  | H : dbind _ _ = DOk _ |- _ => apply dbind_ok in H as (? & ? & ?)
  | H : DOk _ = DOk _ |- _ => injection H as <-
  | H : DErr _ = DOk _ |- _ => discriminate H
  end.

Lemma scalar_inv w0 d ts : expect_scalar_dtype w0 d = DOk ts -> d = DPlain ts.
Proof. unfold expect_scalar_dtype. destruct d; cbn; intros [= <-]. reflexivity. Qed.

Lemma prim_supports_ok p ts : prim_supports p ts = true <->
  match p with
  | PInt s w => ts_size ts = wbytes w /\
      (if s then ts_char ts = TInt \/ (w = W8 /\ (ts_char ts = TTimeDelta \/ ts_char ts = TDateTime)) else ts_char ts = TUint)
  | PFloat w => ts_size ts = fbytes w /\ ts_char ts = TFloat
  | PBool => ts_size ts = 1 /\ ts_char ts = TBool
  end.
Proof.
  unfold prim_supports. destruct p as [ [] [] | w | ]; rewrite andb_true_iff, N.eqb_eq; cbn [wbytes]; destruct (ts_char ts);
    intuition (try discriminate; auto).
Qed.

Lemma prim_swap_ok w0 c p d sw : prim_swap w0 c p d = DOk sw <->
  exists ts, d = DPlain ts /\ prim_supports p ts = true /\ sw = swap_for c ts.
Proof.
  unfold prim_swap. split.
  - intros H. dsimp. exists x. apply scalar_inv in H. destruct (prim_supports p x); dsimp; auto.
  - intros (ts & -> & H & ->). cbn. now rewrite H.
Qed.
Lemma complex_swap_ok w0 c w d sw : complex_swap w0 c w d = DOk sw <->
  exists ts, d = DPlain ts /\ ts_size ts = 2 * cbytes w /\ ts_char ts = TComplex /\ sw = swap_for c ts.
Proof.
  unfold complex_swap. split.
  - intros H. dsimp. apply scalar_inv in H. exists x. destruct (N.eqb_spec (ts_size x) (2 * cbytes w)); cbn [andb] in H0; [ | discriminate ].
    destruct (ts_char x); try discriminate. dsimp. auto.
  - intros (ts & -> & H1 & H2 & ->). cbn [expect_scalar_dtype as_scalar dbind]. rewrite H1, H2, N.eqb_refl. reflexivity.
Qed.
Lemma size_field_ok c ts n : size_field_as_usize c ts = DOk n <-> n = ts_size ts /\ ts_size ts <= c_usize_max c.
Proof.
  unfold size_field_as_usize, usize_try_from. destruct (N.leb_spec (ts_size ts) (c_usize_max c)); split; try discriminate; try lia.
  - intros [= <-]. auto.
  - intros (-> & _). reflexivity.
Qed.
Lemma byte_vec_ok w0 c d i : check_byte_vec_dtype w0 c d = DOk i <->
  exists ts, d = DPlain ts /\ ts_size ts <= c_usize_max c /\
  ((ts_char ts = TByteStr /\ i = (ts_size ts, true, ts)) \/ (ts_char ts = TRawData /\ i = (ts_size ts, false, ts))).
Proof.
  unfold check_byte_vec_dtype. split.
  - intros H. dsimp. apply scalar_inv in H. apply size_field_ok in H0 as (-> & Hm). exists x.
    destruct (ts_char x); dsimp; auto 6.
  - intros (ts & -> & Hm & H). cbn [expect_scalar_dtype as_scalar dbind].
    replace (size_field_as_usize c ts) with (DOk (ts_size ts)) by (symmetry; apply size_field_ok; auto). cbn [dbind].
    destruct H as [ (-> & ->) | (-> & ->) ]; reflexivity.
Qed.
Lemma arr_byte_vec_ok w0 c n d i : check_array_byte_vec_dtype w0 c n d = DOk i <->
  exists ts, d = DPlain ts /\ ts_size ts <= c_usize_max c /\
  ((ts_char ts = TByteStr /\ i = (ts_size ts, true, ts)) \/ (ts_char ts = TRawData /\ ts_size ts <= n /\ i = (ts_size ts, false, ts))).
Proof.
  unfold check_array_byte_vec_dtype. split.
  - intros H. apply dbind_ok in H as (j & Hj & H). apply byte_vec_ok in Hj as (ts & -> & Hm & [ (Hc & ->) | (Hc & ->) ]); exists ts.
    + cbn in H. dsimp. auto 6.
    + cbn [negb andb] in H. destruct (N.ltb_spec n (ts_size ts)); dsimp. auto 8.
  - intros (ts & -> & Hm & [ (Hc & ->) | (Hc & Hn & ->) ]).
    + replace (check_byte_vec_dtype w0 c (DPlain ts)) with (DOk (ts_size ts, true, ts)) by (symmetry; apply byte_vec_ok; eauto 8). reflexivity.
    + replace (check_byte_vec_dtype w0 c (DPlain ts)) with (DOk (ts_size ts, false, ts)) by (symmetry; apply byte_vec_ok; eauto 8).
      cbn [dbind negb andb]. replace (n <? ts_size ts) with false by lia. reflexivity.
Qed.
Lemma fixed_bytes_ok w0 c n d : check_fixed_bytes w0 c n d = DOk tt <->
  exists ts, d = DPlain ts /\ ts_size ts <= c_usize_max c /\ ts_char ts = TRawData /\ ts_size ts = n.
Proof.
  unfold check_fixed_bytes. split.
  - intros H. dsimp. apply scalar_inv in H. apply size_field_ok in H0 as (-> & Hm). exists x.
    destruct (ts_char x); try discriminate. destruct (N.eqb_spec (ts_size x) n); dsimp; auto.
  - intros (ts & -> & Hm & Hc & <-). cbn [expect_scalar_dtype as_scalar dbind].
    replace (size_field_as_usize c ts) with (DOk (ts_size ts)) by (symmetry; apply size_field_ok; auto). cbn [dbind].
    rewrite Hc, N.eqb_refl. reflexivity.
Qed.
Lemma unicode_ok w0 c d p : check_unicode w0 c d = DOk p <->
  exists ts, d = DPlain ts /\ ts_size ts <= c_usize_max c /\ ts_char ts = TUnicodeStr /\ p = (ts_size ts, swap_for c ts, ts).
Proof.
  unfold check_unicode. split.
  - intros H. dsimp. apply scalar_inv in H. exists x. destruct (ts_char x); try discriminate. dsimp.
    apply size_field_ok in H0 as (-> & Hm). auto.
  - intros (ts & -> & Hm & Hc & ->). cbn [expect_scalar_dtype as_scalar dbind]. rewrite Hc.
    replace (size_field_as_usize c ts) with (DOk (ts_size ts)) by (symmetry; apply size_field_ok; auto). reflexivity.
Qed.
Lemma unicode_arr_ok w0 c d p : check_unicode_arr w0 c d = DOk p <->
  exists ts, d = DPlain ts /\ ts_size ts <= c_usize_max c /\ ts_char ts = TUnicodeStr /\ p = (ts_size ts, swap_for c ts).
Proof.
  unfold check_unicode_arr. split.
  - intros H. dsimp. apply scalar_inv in H. exists x. apply size_field_ok in H0 as (-> & Hm).
    destruct (ts_char x); try discriminate. dsimp. auto.
  - intros (ts & -> & Hm & Hc & ->). cbn [expect_scalar_dtype as_scalar dbind].
    replace (size_field_as_usize c ts) with (DOk (ts_size ts)) by (symmetry; apply size_field_ok; auto). cbn [dbind]. now rewrite Hc.
Qed.
Lemma utf8_try_cases c d :
  match utf8_try_from_dtype c d with
  | Some (DOk n) => exists ts, d = DPlain ts /\ ts_char ts = TByteStr /\ ts_size ts <= c_usize_max c /\ n = ts_size ts
  | Some (DErr _) => exists ts, d = DPlain ts /\ c_usize_max c < ts_size ts
  | None => forall ts, d = DPlain ts -> ts_char ts <> TByteStr
  end.
Proof.
  unfold utf8_try_from_dtype. destruct (check_byte_vec_dtype _ c d) as [ ((n, b), ts) | e ] eqn:E.
  - apply byte_vec_ok in E as (ts' & -> & Hm & [ (Hc & [= -> -> ->]) | (Hc & [= -> -> ->]) ]); eauto 6. intros ts [= <-]. congruence.
  - unfold check_byte_vec_dtype, expect_scalar_dtype in E. destruct d as [ ts | | ]; cbn [as_scalar dbind] in E.
    + unfold size_field_as_usize, usize_try_from in E. destruct (N.leb_spec (ts_size ts) (c_usize_max c)); cbn [dbind] in E.
      * destruct (ts_char ts) eqn:F; try discriminate; injection E as <-; intros ts' [= <-]; congruence.
      * injection E as <-. eauto.
    + injection E as <-. intros ts [=].
    + injection E as <-. intros ts [=].
Qed.
Lemma string_reader_ok c d r : string_reader c d = DOk r <->
  exists ts, d = DPlain ts /\ ts_size ts <= c_usize_max c /\
  ((ts_char ts = TUnicodeStr /\ r = RdStr32 (ts_size ts) (swap_for c ts)) \/ (ts_char ts = TByteStr /\ r = RdStr8 (ts_size ts))).
Proof.
  unfold string_reader. pose proof (utf8_try_cases c d) as H8.
  assert (H32 : match utf32_try_from_dtype c d with
                | Some (DOk p) => exists ts, d = DPlain ts /\ ts_char ts = TUnicodeStr /\ ts_size ts <= c_usize_max c /\ p = (ts_size ts, swap_for c ts)
                | Some (DErr _) => exists ts, d = DPlain ts /\ c_usize_max c < ts_size ts
                | None => forall ts, d = DPlain ts -> ts_char ts <> TUnicodeStr
                end).
  { unfold utf32_try_from_dtype, expect_scalar_dtype. destruct d as [ ts | | ]; cbn [as_scalar]; try (intros ts [=]).
    destruct (ts_char ts) eqn:F; try (intros ts' [= <-]; congruence).
    unfold size_field_as_usize, usize_try_from. destruct (N.leb_spec (ts_size ts) (c_usize_max c)); eauto 6. }
  destruct (utf32_try_from_dtype c d) as [ [ p | e ] | ]; cbn [dbind].
  - destruct H32 as (ts & -> & Hc & Hm & ->). split; [ intros [= <-]; eauto 8 | ].
    intros (ts' & [= <-] & _ & [ (Hc' & ->) | (Hc' & ->) ]); [ reflexivity | congruence ].
  - destruct H32 as (ts & -> & Hm). split; [ discriminate | intros (ts' & [= <-] & Hm' & _); lia ].
  - destruct (utf8_try_from_dtype c d) as [ [ m | e ] | ]; cbn [dbind].
    + destruct H8 as (ts & -> & Hc & Hm & ->). split; [ intros [= <-]; eauto 8 | ].
      intros (ts' & [= <-] & _ & [ (Hc' & ->) | (Hc' & ->) ]); [ congruence | reflexivity ].
    + destruct H8 as (ts & -> & Hm). split; [ discriminate | intros (ts' & [= <-] & Hm' & _); lia ].
    + split; [ destruct d; cbn; discriminate | ].
      intros (ts & -> & _ & [ (Hc' & ->) | (Hc' & ->) ]); [ now destruct (H32 ts eq_refl) | now destruct (H8 ts eq_refl) ].
Qed.
Lemma array_string_reader_ok c n d r : array_string_reader c n d = DOk r <->
  exists ts, d = DPlain ts /\ ts_size ts <= c_usize_max c /\ ts_char ts = TByteStr /\ r = RdArrStr n (ts_size ts).
Proof.
  unfold array_string_reader. pose proof (utf8_try_cases c d) as H8.
  destruct (utf8_try_from_dtype c d) as [ [ m | e ] | ]; cbn [dbind].
  - destruct H8 as (ts & -> & Hc & Hm & ->). split; [ intros [= <-]; eauto 6 | intros (ts' & [= <-] & _ & _ & ->); reflexivity ].
  - destruct H8 as (ts & -> & Hm). split; [ discriminate | intros (ts' & [= <-] & Hm' & _); lia ].
  - split; [ destruct d; cbn; discriminate | intros (ts & -> & _ & Hc & _); destruct (H8 ts eq_refl); auto ].
Qed.
Lemma str_writer_ok w0 c d w : str_writer w0 c d = DOk w <->
  exists ts, d = DPlain ts /\ ts_size ts <= c_usize_max c /\
  ((ts_char ts = TUnicodeStr /\ w = WrStr32 ts (ts_size ts) (swap_for c ts)) \/ (ts_char ts = TByteStr /\ w = WrStr8 ts (ts_size ts))).
Proof.
  unfold str_writer. split.
  - intros H. apply dbind_ok in H as (ts & Hd & H). apply scalar_inv in Hd. exists ts.
    destruct (ts_char ts); try discriminate; apply dbind_ok in H as (n & Hn & H); apply size_field_ok in Hn as (-> & Hm); dsimp; auto 6.
  - intros (ts & -> & Hm & H). cbn [expect_scalar_dtype as_scalar dbind].
    replace (size_field_as_usize c ts) with (DOk (ts_size ts)) by (symmetry; apply size_field_ok; auto).
    destruct H as [ (-> & ->) | (-> & ->) ]; reflexivity.
Qed.
Lemma array_inner_ok d n ty : array_inner_dtype d n = DOk ty <-> d = DArray n ty.
Proof.
  unfold array_inner_dtype. destruct d as [ | m d | ]; try (split; discriminate).
  destruct (N.eqb_spec m n); split; try discriminate; try congruence.
Qed.
Lemma extract_ok names d dts : extract_field_dtypes names d = DOk dts <-> exists ds, d = DRecord ds /\ map fst ds = names /\ dts = map snd ds.
Proof.
  unfold extract_field_dtypes. destruct d as [ | | ds ]; try (split; [ discriminate | intros (? & [=] & _) ]).
  destruct (eqb_texts (map fst ds) names) eqn:E.
  - apply eqb_texts_eq in E. split; [ intros [= <-]; eauto | intros (ds' & [= <-] & _ & ->); reflexivity ].
  - split; [ discriminate | ]. intros (ds' & [= <-] & H & _). apply eqb_texts_eq in H. congruence.
Qed.

Ltac dex := match goal with |- exists r, dbind ?m _ = DOk r => idtac end.
Lemma ex_dbind {A B} (m : dres A) (k : A -> B) : (exists r, (let? x := m in DOk (k x)) = DOk r) <-> exists a, m = DOk a.
Proof. split; [ intros (r & H); dsimp; eauto | intros (a & ->); cbn; eauto ]. Qed.
Lemma ex_tt (m : dres unit) : (exists a, m = DOk a) <-> m = DOk tt.
Proof. split; [ intros ([] & H); auto | eauto ]. Qed.

Lemma readers_accepts c fs : Forall (fun f => forall d, (exists r, reader c (snd f) d = DOk r) <-> accepts (c_usize_max c) Reading (snd f) d) fs ->
  forall ds, map fst ds = map fst fs ->
  (exists rs, readers c fs (map snd ds) = DOk rs) <-> accepts_fields (c_usize_max c) Reading fs ds.
Proof.
  induction 1 as [ | (name, t) fs Hf Hfs IH ]; intros [ | (name', d) ds ] Hn; try discriminate Hn; cbn [map fst snd] in *.
  - cbn. split; eauto.
  - injection Hn as -> Hn. cbn [readers accepts_fields]. fold (readers c). fold (accepts_fields (c_usize_max c) Reading).
    rewrite <- (Hf d), <- (IH ds Hn). split.
    + intros (rs & H). apply dbind_ok in H as (r & Hr & H). apply dbind_ok in H as (rs' & Hrs & H). eauto 6.
    + intros (_ & (r & Hr) & (rs & Hrs)). rewrite Hr. cbn [dbind]. rewrite Hrs. cbn. eauto.
Qed.
Lemma writers_accepts c fs : Forall (fun f => forall d, (exists r, writer c (snd f) d = DOk r) <-> accepts (c_usize_max c) Writing (snd f) d) fs ->
  forall ds, map fst ds = map fst fs ->
  (exists rs, writers c fs (map snd ds) = DOk rs) <-> accepts_fields (c_usize_max c) Writing fs ds.
Proof.
  induction 1 as [ | (name, t) fs Hf Hfs IH ]; intros [ | (name', d) ds ] Hn; try discriminate Hn; cbn [map fst snd] in *.
  - cbn. split; eauto.
  - injection Hn as -> Hn. cbn [writers accepts_fields]. fold (writers c). fold (accepts_fields (c_usize_max c) Writing).
    rewrite <- (Hf d), <- (IH ds Hn). split.
    + intros (rs & H). apply dbind_ok in H as (r & Hr & H). apply dbind_ok in H as (rs' & Hrs & H). eauto 6.
    + intros (_ & (r & Hr) & (rs & Hrs)). rewrite Hr. cbn [dbind]. rewrite Hrs. cbn. eauto.
Qed.
Lemma accepts_fields_names m dir fs : forall ds, accepts_fields m dir fs ds -> map fst ds = map fst fs.
Proof.
  induction fs as [ | (n, t) fs IH ]; intros [ | (n', d) ds ]; cbn; try contradiction; auto.
  intros (-> & _ & H). f_equal. now apply IH.
Qed.

Ltac acc_scalar lem := split;
  [ let sw := fresh in let ts := fresh in let H := fresh in
    intros (sw & H); apply lem in H as (ts & -> & H); cbn; intuition (try discriminate; auto)
  | match goal with |- accepts _ _ _ ?d -> _ => let ts := fresh "ts" in destruct d as [ ts | | ]; cbn [accepts scalar_ok is_string_type]; try contradiction;
      let H := fresh in intros H; intuition (try discriminate; subst; auto); eexists; apply lem; exists ts; intuition eauto end ].

Lemma reader_accepts c t : forall d, (exists r, reader c t d = DOk r) <-> accepts (c_usize_max c) Reading t d.
Proof.
  induction t as [ t Ha Hs | n t IH | fs IH ] using rty_rect'; intros d.
  - destruct t; try (now destruct (Ha _ _ eq_refl)); try (now destruct (Hs _ eq_refl)); cbn [reader]; rewrite ?ex_dbind.
    + split.
      * intros (sw & H). apply prim_swap_ok in H as (ts & -> & H & _). apply prim_supports_ok in H as (H1 & H2). cbn. destruct signed; auto.
        all: split; auto; discriminate.
      * destruct d as [ ts | | ]; cbn [accepts scalar_ok is_string_type]; try (now destruct signed). intros (H & _). eexists. apply prim_swap_ok. exists ts.
        rewrite prim_supports_ok. destruct signed; intuition eauto.
    + split.
      * intros (sw & H). apply prim_swap_ok in H as (ts & -> & H & _). apply prim_supports_ok in H. cbn. split; auto; discriminate.
      * destruct d as [ ts | | ]; cbn [accepts scalar_ok is_string_type]; try contradiction. intros (H & _). eexists. apply prim_swap_ok. exists ts. rewrite prim_supports_ok. eauto.
    + split.
      * intros (sw & H). apply prim_swap_ok in H as (ts & -> & H & _). apply prim_supports_ok in H. cbn. split; auto; discriminate.
      * destruct d as [ ts | | ]; cbn [accepts scalar_ok is_string_type]; try contradiction. intros (H & _). eexists. apply prim_swap_ok. exists ts. rewrite prim_supports_ok. eauto.
    + acc_scalar complex_swap_ok.
    + acc_scalar byte_vec_ok.
    + rewrite ex_tt. rewrite fixed_bytes_ok. split.
      * intros (ts & -> & H). cbn. intuition.
      * destruct d as [ ts | | ]; cbn [accepts scalar_ok is_string_type]; try contradiction. intros H. exists ts. intuition.
    + acc_scalar arr_byte_vec_ok.
    + acc_scalar unicode_ok.
    + acc_scalar unicode_ok.
    + acc_scalar string_reader_ok.
    + acc_scalar unicode_arr_ok.
    + acc_scalar unicode_arr_ok.
    + acc_scalar array_string_reader_ok.
  - cbn [reader]. split.
    + intros (r & H). apply dbind_ok in H as (ty & Hty & H). apply array_inner_ok in Hty as ->. apply dbind_ok in H as (r' & Hr & _).
      cbn. split; auto. apply IH. eauto.
    + destruct d as [ ts | m d | ds ]; cbn [accepts]; try contradiction; try (intros (Hf & _); destruct Hf; fail). intros (<- & H). apply IH in H as (r & Hr).
      replace (array_inner_dtype (DArray n d) n) with (DOk d) by (symmetry; now apply array_inner_ok). cbn [dbind]. rewrite Hr. cbn. eauto.
  - rewrite reader_struct. split.
    + intros (r & H). apply dbind_ok in H as (dts & Hd & H). apply extract_ok in Hd as (ds & -> & Hn & ->).
      apply dbind_ok in H as (rs & Hrs & _). rewrite accepts_struct. apply (readers_accepts c fs IH ds Hn). eauto.
    + destruct d as [ ts | m d | ds ]; cbn [accepts]; try contradiction; try (intros (Hf & _); destruct Hf; fail). fold (accepts_fields (c_usize_max c) Reading). intros H.
      pose proof (accepts_fields_names _ _ _ _ H) as Hn. apply (readers_accepts c fs IH ds Hn) in H as (rs & Hrs).
      replace (extract_field_dtypes _ _) with (DOk (map snd ds)) by (symmetry; apply extract_ok; eauto). cbn [dbind]. rewrite Hrs. cbn. eauto.
Qed.

Lemma writer_accepts c t : forall d, (exists r, writer c t d = DOk r) <-> accepts (c_usize_max c) Writing t d.
Proof.
  induction t as [ t Ha Hs | n t IH | fs IH ] using rty_rect'; intros d.
  - destruct t; try (now destruct (Ha _ _ eq_refl)); try (now destruct (Hs _ eq_refl)); cbn [writer]; rewrite ?ex_dbind.
    + split.
      * intros (sw & H). apply prim_swap_ok in H as (ts & -> & H & _). apply prim_supports_ok in H as (H1 & H2). cbn. destruct signed; auto.
        all: split; auto; discriminate.
      * destruct d as [ ts | | ]; cbn [accepts scalar_ok is_string_type]; try (now destruct signed). intros (H & _). eexists. apply prim_swap_ok. exists ts.
        rewrite prim_supports_ok. destruct signed; intuition eauto.
    + split.
      * intros (sw & H). apply prim_swap_ok in H as (ts & -> & H & _). apply prim_supports_ok in H. cbn. split; auto; discriminate.
      * destruct d as [ ts | | ]; cbn [accepts scalar_ok is_string_type]; try contradiction. intros (H & _). eexists. apply prim_swap_ok. exists ts. rewrite prim_supports_ok. eauto.
    + split.
      * intros (sw & H). apply prim_swap_ok in H as (ts & -> & H & _). apply prim_supports_ok in H. cbn. split; auto; discriminate.
      * destruct d as [ ts | | ]; cbn [accepts scalar_ok is_string_type]; try contradiction. intros (H & _). eexists. apply prim_swap_ok. exists ts. rewrite prim_supports_ok. eauto.
    + acc_scalar complex_swap_ok.
    + acc_scalar byte_vec_ok.
    + rewrite ex_tt. rewrite fixed_bytes_ok. split.
      * intros (ts & -> & H). cbn. intuition.
      * destruct d as [ ts | | ]; cbn [accepts scalar_ok is_string_type]; try contradiction. intros H. exists ts. intuition.
    + acc_scalar arr_byte_vec_ok.
    + acc_scalar unicode_ok.
    + acc_scalar unicode_ok.
    + acc_scalar str_writer_ok.
    + acc_scalar unicode_ok.
    + acc_scalar unicode_ok.
    + acc_scalar str_writer_ok.
  - cbn [writer]. split.
    + intros (r & H). apply dbind_ok in H as (ty & Hty & H). apply array_inner_ok in Hty as ->. apply dbind_ok in H as (r' & Hr & _).
      cbn. split; auto. apply IH. eauto.
    + destruct d as [ ts | m d | ds ]; cbn [accepts]; try contradiction; try (intros (Hf & _); destruct Hf; fail). intros (<- & H). apply IH in H as (r & Hr).
      replace (array_inner_dtype (DArray n d) n) with (DOk d) by (symmetry; now apply array_inner_ok). cbn [dbind]. rewrite Hr. cbn. eauto.
  - rewrite writer_struct. split.
    + intros (r & H). apply dbind_ok in H as (dts & Hd & H). apply extract_ok in Hd as (ds & -> & Hn & ->).
      apply dbind_ok in H as (rs & Hrs & _). rewrite accepts_struct. apply (writers_accepts c fs IH ds Hn). eauto.
    + destruct d as [ ts | m d | ds ]; cbn [accepts]; try contradiction; try (intros (Hf & _); destruct Hf; fail). fold (accepts_fields (c_usize_max c) Writing). intros H.
      pose proof (accepts_fields_names _ _ _ _ H) as Hn. apply (writers_accepts c fs IH ds Hn) in H as (rs & Hrs).
      replace (extract_field_dtypes _ _) with (DOk (map snd ds)) by (symmetry; apply extract_ok; eauto). cbn [dbind]. rewrite Hrs. cbn. eauto.
Qed.
