(** Errors about dtypes: proofs. *)
From Verif Require Import M_Base M_Text M_TypeStr M_IO M_Header M_Read M_Serialize M_NpyReader S_TypeStr S_DType S_Elem S_Reject P_Base P_Elem.
Open Scope N_scope.

Lemma not_composite_cases t : (forall n t', t <> RArray n t') -> (forall fs, t <> RStruct fs) -> not_composite t.
Proof. split; auto. Qed.

(** Scalars, by computation. *)
Ltac crunch ts := destruct (ts_char ts) eqn:?; cbn in *.
Lemma size_field_cases c ts : size_field_as_usize c ts = if ts_size ts <=? c_usize_max c then DOk (ts_size ts) else DErr (UsizeOverflow (ts_size ts)).
Proof. unfold size_field_as_usize, usize_try_from. destruct (ts_size ts <=? c_usize_max c); reflexivity. Qed.

Definition scalar_error (dir : direction) (m : N) (t : rty) (ts : type_str) (ok : bool) : option dterr :=
  let fits := ts_size ts <=? m in
  let sized := is_string_type t in
  let first := match t, dir with
    | (RVecU8 | RFixedBytes _ | RArrU8 _), _ => true
    | (RString | RArrU32 _ | RArrChar _ | RArrString _), Reading => true
    | _, _ => false
    end in
  if first && negb fits then Some (UsizeOverflow (ts_size ts))
  else if negb ok then Some (BadScalar ts (called dir t) (verb dir))
  else if sized && negb fits then Some (UsizeOverflow (ts_size ts))
  else None.
Lemma scalar_error_rejects dir m t ts ok e : not_composite t -> (ok = true <-> scalar_ok dir t (ts_char ts) (ts_size ts)) ->
  scalar_error dir m t ts ok = Some e <-> rejects m dir t (DPlain ts) e.
Proof.
  intros Ht Hok. unfold scalar_error.
  set (first := match t, dir with (RVecU8 | RFixedBytes _ | RArrU8 _), _ => true | (RString | RArrU32 _ | RArrChar _ | RArrString _), Reading => true | _, _ => false end).
  assert (Hf : first = true <-> size_first dir t) by (unfold first; destruct t, dir; cbn; split; intros; try discriminate; try contradiction; auto).
  assert (Hs : first = true -> is_string_type t = true) by (unfold first; destruct t, dir; cbn; congruence).
  split.
  - destruct (ts_size ts <=? m) eqn:E; cbn [negb]; rewrite ?andb_false_r, ?andb_true_r.
    + destruct ok; cbn [negb]; [ discriminate | ]. intros [= <-]. apply rejects_scalar; [ auto | rewrite <- Hok; discriminate | lia ].
    + destruct first.
      * intros [= <-]. apply rejects_size; [ auto | lia | right; now apply Hf ].
      * destruct ok; cbn [negb].
        -- destruct (is_string_type t) eqn:Et; [ | discriminate ]. intros [= <-]. apply rejects_size; [ auto | lia | left; now apply Hok ].
        -- intros [= <-]. apply rejects_scalar; [ auto | rewrite <- Hok; discriminate | rewrite <- Hf; discriminate ].
  - intros H. inversion H as [ t' d' H1 H2 | t' ts' H1 H2 H3 | t' ts' H1 H2 H3 | n t' ts' | n t' ds | n t' k d' H1 | n t' d' e' H1 | fs d' H1 | fs ds H1 | ]; subst.
    + destruct (H2 ts eq_refl).
    + assert (ok = false) as -> by (destruct ok; [ destruct H2; now apply Hok | reflexivity ]). cbn [negb].
      destruct first; cbn [andb]; [ | reflexivity ]. replace (ts_size ts <=? m) with true by (specialize (H3 (proj1 Hf eq_refl)); lia). reflexivity.
    + replace (ts_size ts <=? m) with false by lia. cbn [negb]. rewrite andb_true_r, H1. destruct first; [ reflexivity | ].
      assert (ok = true) as -> by (apply Hok; destruct H3 as [ H3 | H3 ]; [ auto | apply Hf in H3; discriminate ]). reflexivity.
    + destruct Ht as (Ht & _). destruct (Ht _ _ eq_refl).
    + destruct Ht as (_ & Ht). destruct (Ht _ eq_refl).
Qed.
Definition scalar_okb (dir : direction) (t : rty) (code : type_char) (m : N) : bool :=
  match t with
  | RInt true w => (m =? int_bytes w) && match code with TInt => true | TTimeDelta | TDateTime => match w with W8 => true | _ => false end | _ => false end
  | RInt false w => (m =? int_bytes w) && match code with TUint => true | _ => false end
  | RFloat w => (m =? float_bytes w) && match code with TFloat => true | _ => false end
  | RBool => (m =? 1) && match code with TBool => true | _ => false end
  | RComplex w => (m =? 2 * part_bytes w) && match code with TComplex => true | _ => false end
  | RString => match code with TByteStr | TUnicodeStr => true | _ => false end
  | RVecU8 => match code with TRawData | TByteStr => true | _ => false end
  | RVecU32 | RVecChar | RArrU32 _ | RArrChar _ => match code with TUnicodeStr => true | _ => false end
  | RFixedBytes n => match code with TRawData => m =? n | _ => false end
  | RArrU8 n => match code with TRawData => m <=? n | TByteStr => true | _ => false end
  | RArrString _ => match code with TByteStr => true | TUnicodeStr => match dir with Writing => true | Reading => false end | _ => false end
  | RArray _ _ | RStruct _ => false
  end.
Lemma scalar_okb_ok dir t code m : scalar_okb dir t code m = true <-> scalar_ok dir t code m.
Proof.
  destruct t as [ [ | ] w | w | | w | | n | n | | | | n | n | n | n t | fs ]; cbn [scalar_okb scalar_ok]; rewrite ?andb_true_iff, ?N.eqb_eq;
    destruct code; rewrite ?N.eqb_eq, ?N.leb_le; try destruct w; try destruct dir; intuition (try discriminate; try congruence; auto).
Qed.

(** The names of the types. *)
Lemma reading_name t : s_type (reading t) = called Reading t.
Proof. destruct t as [ [ | ] [ | | | ] | [ | | ] | | [ | ] | | n | n | | | | n | n | n | n t | fs ]; reflexivity. Qed.
Lemma writing_name t : s_type (writing t) = called Writing t.
Proof. destruct t as [ [ | ] [ | | | ] | [ | | ] | | [ | ] | | n | n | | | | n | n | n | n t | fs ]; reflexivity. Qed.
Lemma bad_reading t ts : bad_scalar (reading t) ts = BadScalar ts (called Reading t) (verb Reading).
Proof. unfold bad_scalar. now rewrite reading_name. Qed.
Lemma bad_writing t ts : bad_scalar (writing t) ts = BadScalar ts (called Writing t) (verb Writing).
Proof. unfold bad_scalar. now rewrite writing_name. Qed.

Definition derr {A} (r : dres A) : option dterr := match r with DOk _ => None | DErr e => Some e end.
Lemma derr_bind {A B} (r : dres A) (k : A -> dres B) : derr (dbind r k) = match r with DOk a => derr (k a) | DErr e => Some e end.
Proof. destruct r; reflexivity. Qed.
Ltac scalar_compute := repeat match goal with
  | |- context [ if ?x then _ else _ ] => destruct x eqn:?
  | |- context [ match ?x with DOk _ => _ | DErr _ => _ end ] => destruct x eqn:?
  end.
Lemma reader_scalar c t ts : not_composite t -> derr (reader c t (DPlain ts)) = scalar_error Reading (c_usize_max c) t ts (scalar_okb Reading t (ts_char ts) (ts_size ts)).
Proof.
  intros (Ha & Hs). unfold scalar_error.
  destruct t as [ sg w | w | | w | | n | n | | | | n | n | n | n t | fs ]; try (now destruct (Ha _ _ eq_refl)); try (now destruct (Hs _ eq_refl));
    cbn [reader is_string_type scalar_okb andb];
    unfold prim_swap, complex_swap, check_fixed_bytes, check_array_byte_vec_dtype, check_byte_vec_dtype, check_unicode, check_unicode_arr,
      string_reader, array_string_reader, utf32_try_from_dtype, utf8_try_from_dtype, check_byte_vec_dtype, expect_scalar_dtype; cbn [as_scalar dbind];
    rewrite ?size_field_cases, ?bad_reading, ?bad_writing.
  all: try (destruct (ts_size ts <=? c_usize_max c) eqn:?; cbn [dbind negb andb]).
  all: try (unfold prim_supports, wbytes, fbytes, cbytes, int_bytes, float_bytes, part_bytes).
  all: destruct (ts_char ts) eqn:?; try destruct sg; try destruct w; cbn [dbind derr andb negb fst snd]; rewrite ?andb_true_r, ?andb_false_r; cbn [dbind derr andb negb fst snd]; try reflexivity.
  all: repeat match goal with |- context [ ?a =? ?b ] => destruct (N.eqb_spec a b); cbn [dbind derr andb negb fst snd] | |- context [ ?a <? ?b ] => destruct (N.ltb_spec a b); cbn [dbind derr andb negb fst snd] | |- context [ ?a <=? ?b ] => destruct (N.leb_spec a b); cbn [dbind derr andb negb fst snd] end;
    try reflexivity; try lia.
Qed.
Lemma writer_scalar c t ts : not_composite t -> derr (writer c t (DPlain ts)) = scalar_error Writing (c_usize_max c) t ts (scalar_okb Writing t (ts_char ts) (ts_size ts)).
Proof.
  intros (Ha & Hs). unfold scalar_error.
  destruct t as [ sg w | w | | w | | n | n | | | | n | n | n | n t | fs ]; try (now destruct (Ha _ _ eq_refl)); try (now destruct (Hs _ eq_refl));
    cbn [writer is_string_type scalar_okb andb];
    unfold prim_swap, complex_swap, check_fixed_bytes, check_array_byte_vec_dtype, check_byte_vec_dtype, check_unicode, str_writer, expect_scalar_dtype; cbn [as_scalar dbind];
    rewrite ?size_field_cases, ?bad_reading, ?bad_writing.
  all: try (destruct (ts_size ts <=? c_usize_max c) eqn:?; cbn [dbind negb andb]).
  all: try (unfold prim_supports, wbytes, fbytes, cbytes, int_bytes, float_bytes, part_bytes).
  all: destruct (ts_char ts) eqn:?; try destruct sg; try destruct w; cbn [dbind derr andb negb fst snd]; rewrite ?andb_true_r, ?andb_false_r; cbn [dbind derr andb negb fst snd]; try reflexivity.
  all: repeat match goal with |- context [ ?a =? ?b ] => destruct (N.eqb_spec a b); cbn [dbind derr andb negb fst snd] | |- context [ ?a <? ?b ] => destruct (N.ltb_spec a b); cbn [dbind derr andb negb fst snd] | |- context [ ?a <=? ?b ] => destruct (N.leb_spec a b); cbn [dbind derr andb negb fst snd] end;
    try reflexivity; try lia.
Qed.
Lemma scalar_composite dir (f : cfg -> rty -> dtype -> option dterr) c t d :
  f = (match dir with Reading => fun c t d => derr (reader c t d) | Writing => fun c t d => derr (writer c t d) end) ->
  not_composite t -> (forall ts, d <> DPlain ts) -> f c t d = Some (ExpectedScalar d (called dir t)).
Proof.
  intros -> (Ha & Hs) Hd. assert (E : forall w, expect_scalar_dtype w d = DErr (ExpectedScalar d (s_type w))) by (destruct d as [ ts | | ]; [ destruct (Hd ts eq_refl) | reflexivity | reflexivity ]).
  destruct dir; destruct t as [ sg w | w | | w | | n | n | | | | n | n | n | n t | fs ]; try (now destruct (Ha _ _ eq_refl)); try (now destruct (Hs _ eq_refl));
    cbn [reader writer]; unfold prim_swap, complex_swap, check_fixed_bytes, check_array_byte_vec_dtype, check_byte_vec_dtype, check_unicode, check_unicode_arr,
      string_reader, array_string_reader, utf32_try_from_dtype, utf8_try_from_dtype, check_byte_vec_dtype, str_writer; rewrite ?E; cbn [dbind as_scalar]; rewrite ?E; cbn [dbind derr]; rewrite ?reading_name, ?writing_name; try reflexivity; destruct d as [ ts | | ]; [ destruct (Hd ts eq_refl) | reflexivity | reflexivity ].
Qed.

Lemma reject_scalar_composite m dir t d e : not_composite t -> (forall ts, d <> DPlain ts) -> rejects m dir t d e <-> e = ExpectedScalar d (called dir t).
Proof.
  intros (Ha & Hs) Hd. split; [ | intros ->; apply rejects_composite; [ split; auto | auto ] ].
  intros H. inversion H; subst; try reflexivity; try (now destruct (Hd _ eq_refl)); try (now destruct (Ha _ _ eq_refl)); now destruct (Hs _ eq_refl).
Qed.
Lemma reject_array m dir n t d e : rejects m dir (RArray n t) d e <->
  match d with DArray k d' => if n =? k then rejects m dir t d' e else e = WrongArrayLen n k | DPlain _ => e = ExpectedArray (lit "a scalar") | DRecord _ => e = ExpectedArray (lit "a record") end.
Proof.
  assert (Hc : forall A, not_composite (RArray n t) -> A) by (intros A (H & _); destruct (H _ _ eq_refl)).
  split.
  - intros H. inversion H; subst; try (now apply Hc); try discriminate.
    + reflexivity.
    + reflexivity.
    + replace (n =? k) with false by (symmetry; now apply N.eqb_neq). reflexivity.
    + rewrite N.eqb_refl. assumption.
  - destruct d as [ ts | k d' | ds ]; [ intros ->; apply rejects_not_array | | intros ->; apply rejects_record ].
    destruct (N.eqb_spec n k) as [ <- | Hn ]; [ apply rejects_item | intros ->; now apply rejects_length ].
Qed.
Fixpoint rejects_in (m : N) (dir : direction) (fs : list (text * rty)) (ds : list (text * dtype)) (e : dterr) : Prop :=
  match fs, ds with
  | (_, t) :: fs', (_, d) :: ds' => rejects m dir t d e \/ (accepts m dir t d /\ rejects_in m dir fs' ds' e)
  | _, _ => False
  end.
Lemma rejects_in_spec m dir e fs : forall ds, map fst ds = map fst fs -> rejects_in m dir fs ds e <->
  exists fs1 name t fs2 ds1 d ds2, fs = fs1 ++ (name, t) :: fs2 /\ ds = ds1 ++ (name, d) :: ds2 /\ map fst ds1 = map fst fs1 /\ map fst ds2 = map fst fs2
    /\ Forall2 (fun f g => accepts m dir (snd f) (snd g)) fs1 ds1 /\ rejects m dir t d e.
Proof.
  induction fs as [ | (name, t) fs IH ]; intros [ | (name', d) ds ] Hn; try discriminate Hn; cbn [map fst] in Hn; cbn [rejects_in].
  - split; [ contradiction | ]. intros (fs1 & ? & ? & ? & ? & ? & ? & H & _). destruct fs1; discriminate.
  - injection Hn as -> Hn. rewrite (IH ds Hn). split.
    + intros [ H | (Ha & fs1 & n1 & t1 & fs2 & ds1 & d1 & ds2 & -> & -> & H1 & H2 & H3 & H4) ].
      * exists [], name, t, fs, [], d, ds. auto 10.
      * exists ((name, t) :: fs1), n1, t1, fs2, ((name, d) :: ds1), d1, ds2. cbn [map fst]. split; [ reflexivity | ]. split; [ reflexivity | ]. split; [ now rewrite H1 | ]. auto.
    + intros (fs1 & n1 & t1 & fs2 & ds1 & d1 & ds2 & Hf & Hd & H1 & H2 & H3 & H4).
      destruct fs1 as [ | (n0, t0) fs1 ]; destruct ds1 as [ | (m0, d0) ds1 ]; try discriminate H1.
      * injection Hf as -> -> ->. injection Hd as -> ->. auto.
      * injection Hf as -> -> ->. injection Hd as -> -> ->. inversion H3; subst. right. split; [ assumption | ]. cbn [map fst] in H1. injection H1 as H1.
        exists fs1, n1, t1, fs2, ds1, d1, ds2. auto 10.
Qed.
Lemma reject_struct m dir fs d e : rejects m dir (RStruct fs) d e <->
  match d with DRecord ds => (map fst ds = map fst fs /\ rejects_in m dir fs ds e) \/ (map fst ds <> map fst fs /\ e = WrongFields (map fst ds) (map fst fs)) | _ => e = ExpectedRecord d end.
Proof.
  assert (Hc : forall A, not_composite (RStruct fs) -> A) by (intros A (_ & H); destruct (H _ eq_refl)).
  split.
  - intros H. inversion H as [ | | | | | | | fs0 d0 Hd | fs0 ds0 Hn | fs1 name t fs2 ds1 d1 ds2 e1 H1 H2 H3 H4 ]; subst; try (now apply Hc); try discriminate.
    + destruct d; try reflexivity. now destruct (Hd _ eq_refl).
    + auto.
    + left. assert (Hn : map fst (ds1 ++ (name, d1) :: ds2) = map fst (fs1 ++ (name, t) :: fs2)) by (rewrite !map_app; cbn [map fst]; now rewrite H1, H2).
      split; [ exact Hn | ]. apply rejects_in_spec; [ exact Hn | ]. exists fs1, name, t, fs2, ds1, d1, ds2. auto 10.
  - destruct d as [ ts | k d' | ds ]; [ intros ->; apply rejects_not_record; discriminate | intros ->; apply rejects_not_record; discriminate | ].
    intros [ (Hn & H) | (Hn & ->) ]; [ | now apply rejects_names ].
    apply rejects_in_spec in H as (fs1 & name & t & fs2 & ds1 & d1 & ds2 & -> & -> & H1 & H2 & H3 & H4); [ | exact Hn ]. now apply rejects_field.
Qed.

Lemma derr_some {A} (r : dres A) e : derr r = Some e <-> r = DErr e.
Proof. destruct r; cbn; split; congruence. Qed.
Lemma not_both_ways {A} (r : dres A) e : (exists a, r = DOk a) -> r = DErr e -> False.
Proof. intros (a & ->). discriminate. Qed.

Lemma readers_rejects c fs : Forall (fun f => forall d e, reader c (snd f) d = DErr e <-> rejects (c_usize_max c) Reading (snd f) d e) fs ->
  forall ds e, map fst ds = map fst fs -> readers c fs (map snd ds) = DErr e <-> rejects_in (c_usize_max c) Reading fs ds e.
Proof.
  induction 1 as [ | (name, t) fs Hf Hfs IH ]; intros [ | (name', d) ds ] e Hn; try discriminate Hn; cbn [map fst snd] in *.
  - cbn. split; [ discriminate | contradiction ].
  - injection Hn as -> Hn. cbn [readers rejects_in]. rewrite <- (Hf d e), <- (IH ds e Hn), <- reader_accepts.
    destruct (reader c t d) as [ r | e' ]; cbn [dbind].
    + destruct (readers c fs (map snd ds)) as [ rs | e' ]; cbn [dbind]; split; try discriminate.
      * intros [ H | (_ & H) ]; discriminate.
      * intros [= ->]. right. split; [ eauto | reflexivity ].
      * intros [ H | (_ & [= ->]) ]; [ discriminate | reflexivity ].
    + split; [ intros [= ->]; auto | ]. intros [ [= ->] | ((r & H) & _) ]; [ reflexivity | discriminate ].
Qed.
Lemma writers_rejects c fs : Forall (fun f => forall d e, writer c (snd f) d = DErr e <-> rejects (c_usize_max c) Writing (snd f) d e) fs ->
  forall ds e, map fst ds = map fst fs -> writers c fs (map snd ds) = DErr e <-> rejects_in (c_usize_max c) Writing fs ds e.
Proof.
  induction 1 as [ | (name, t) fs Hf Hfs IH ]; intros [ | (name', d) ds ] e Hn; try discriminate Hn; cbn [map fst snd] in *.
  - cbn. split; [ discriminate | contradiction ].
  - injection Hn as -> Hn. cbn [writers rejects_in]. rewrite <- (Hf d e), <- (IH ds e Hn), <- writer_accepts.
    destruct (writer c t d) as [ r | e' ]; cbn [dbind].
    + destruct (writers c fs (map snd ds)) as [ rs | e' ]; cbn [dbind]; split; try discriminate.
      * intros [ H | (_ & H) ]; discriminate.
      * intros [= ->]. right. split; [ eauto | reflexivity ].
      * intros [ H | (_ & [= ->]) ]; [ discriminate | reflexivity ].
    + split; [ intros [= ->]; auto | ]. intros [ [= ->] | ((r & H) & _) ]; [ reflexivity | discriminate ].
Qed.
Lemma dbind_derr {A B} (r : dres A) (k : A -> B) e : (let? x := r in DOk (k x)) = DErr e <-> r = DErr e.
Proof. destruct r; cbn [dbind]; split; congruence. Qed.
Lemma reader_rejects c t : forall d e, reader c t d = DErr e <-> rejects (c_usize_max c) Reading t d e.
Proof.
  induction t as [ t Ha Hs | n t IH | fs IH ] using rty_rect'; intros d e.
  - assert (Ht : not_composite t) by (split; auto). destruct d as [ ts | k d' | ds ].
    + rewrite <- derr_some, reader_scalar by auto. apply scalar_error_rejects; [ auto | apply scalar_okb_ok ].
    + rewrite <- derr_some, reject_scalar_composite by (auto; discriminate). rewrite (scalar_composite Reading _ c t _ eq_refl Ht) by discriminate. split; congruence.
    + rewrite <- derr_some, reject_scalar_composite by (auto; discriminate). rewrite (scalar_composite Reading _ c t _ eq_refl Ht) by discriminate. split; congruence.
  - rewrite reject_array. cbn [reader]. destruct d as [ ts | k d' | ds ]; cbn [array_inner_dtype dbind]; [ split; congruence | | split; congruence ].
    rewrite (N.eqb_sym k n). destruct (n =? k); cbn [dbind]; [ rewrite dbind_derr; apply IH | split; congruence ].
  - rewrite reject_struct. cbn [reader]. fold (readers c). destruct d as [ ts | k d' | ds ]; cbn [extract_field_dtypes dbind]; [ split; congruence | split; congruence | ].
    destruct (eqb_texts (map fst ds) (map fst fs)) eqn:E; cbn [dbind].
    + apply eqb_texts_eq in E. rewrite dbind_derr, (readers_rejects c fs IH ds e E). split; [ auto | ]. intros [ (_ & H) | (H & _) ]; [ exact H | contradiction ].
    + assert (Hn : map fst ds <> map fst fs) by (intros H; apply eqb_texts_eq in H; congruence). split; [ intros [= <-]; auto | ]. intros [ (H & _) | (_ & ->) ]; [ contradiction | reflexivity ].
Qed.
Lemma writer_rejects c t : forall d e, writer c t d = DErr e <-> rejects (c_usize_max c) Writing t d e.
Proof.
  induction t as [ t Ha Hs | n t IH | fs IH ] using rty_rect'; intros d e.
  - assert (Ht : not_composite t) by (split; auto). destruct d as [ ts | k d' | ds ].
    + rewrite <- derr_some, writer_scalar by auto. apply scalar_error_rejects; [ auto | apply scalar_okb_ok ].
    + rewrite <- derr_some, reject_scalar_composite by (auto; discriminate). rewrite (scalar_composite Writing _ c t _ eq_refl Ht) by discriminate. split; congruence.
    + rewrite <- derr_some, reject_scalar_composite by (auto; discriminate). rewrite (scalar_composite Writing _ c t _ eq_refl Ht) by discriminate. split; congruence.
  - rewrite reject_array. cbn [writer]. destruct d as [ ts | k d' | ds ]; cbn [array_inner_dtype dbind]; [ split; congruence | | split; congruence ].
    rewrite (N.eqb_sym k n). destruct (n =? k); cbn [dbind]; [ rewrite dbind_derr; apply IH | split; congruence ].
  - rewrite reject_struct. cbn [writer]. fold (writers c). destruct d as [ ts | k d' | ds ]; cbn [extract_field_dtypes dbind]; [ split; congruence | split; congruence | ].
    destruct (eqb_texts (map fst ds) (map fst fs)) eqn:E; cbn [dbind].
    + apply eqb_texts_eq in E. rewrite dbind_derr, (writers_rejects c fs IH ds e E). split; [ auto | ]. intros [ (_ & H) | (H & _) ]; [ exact H | contradiction ].
    + assert (Hn : map fst ds <> map fst fs) by (intros H; apply eqb_texts_eq in H; congruence). split; [ intros [= <-]; auto | ]. intros [ (H & _) | (_ & ->) ]; [ contradiction | reflexivity ].
Qed.
